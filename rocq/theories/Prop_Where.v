(** C74: what a new Dictionary depends on. *)
From Coq Require Import String Ascii List ZArith Lia Bool Arith.
From Verif Require Import Base Utf8 M_Builder M_CharCategory M_InputText M_InputPlugins M_Lattice M_Oov M_Tokenizer M_NumericParser M_PathRewrite M_Morphemes
  M_Shipped M_Bytes M_DicReader M_DicBuilder M_LexiconSet M_Front M_Resource M_Setup S_Resource
  P_DicToy P_DicOpen P_DicSource P_DicGrammar Prop_Format P_LexiconSet Prop_Lexicon Prop_CharCategory P_Resource Prop_Resource P_Setup P_System Prop_System.
Import ListNotations.
Open Scope list_scope.
Open Scope Z_scope.

(** ** Specification: the files that settings name *)
Section named.
Variable join : text -> text -> text.
Variable is_absolute : text -> bool.
Variable package_dir : text.              (* where sudachipy keeps its own resources *)
Variable c : conf.
Variable d : text.                        (* the resource directory *)
Definition place (p : text) : text := if is_absolute p then p else join d p.

Inductive named_binary : text -> Prop :=
| NB_system p : conf_get c (txt "systemDict") = Some (JStr p) -> named_binary (place p)
| NB_user l p : conf_get c (txt "userDict") = Some (JList l) -> In (JStr p) l -> named_binary (place p).
Inductive named_text : text -> Prop :=
| NT_chars p : conf_get c (txt "characterDefinitionFile") = Some (JStr p) -> named_text (place p)
| NT_mecab l o k p : conf_get c (txt "oovProviderPlugin") = Some (JList l) -> In (JObj o) l ->
    conf_get o (txt "class") = Some (JStr (txt "sudachipy.plugin.oov.MeCabOovProviderPlugin")) ->
    In k [txt "charDef"; txt "unkDef"] -> conf_get o k = Some (JStr p) -> named_text (join d p)
| NT_rewrite l o : conf_get c (txt "inputTextPlugin") = Some (JList l) -> In (JObj o) l ->
    conf_get o (txt "class") = Some (JStr (txt "sudachipy.plugin.input_text.DefaultInputTextPlugin")) ->
    named_text (join package_dir (txt "rewrite.def")).
End named.

(** ** Proofs *)
Lemma bind_ext {A B} (m : res A) (f g : A -> res B) : (forall a, m = Ok a -> f a = g a) -> bind m f = bind m g.
Proof. destruct m; cbn [bind]; auto. Qed.
Lemma mapM_ext_in {A B} (f g : A -> res B) l : (forall a, In a l -> f a = g a) -> mapM f l = mapM g l.
Proof. induction l as [|x l IH]; intros H; [reflexivity|]. cbn [mapM]. rewrite (H x (or_introl eq_refl)). apply bind_ext. intros y _. rewrite IH; [reflexivity|]. intros a Ha. apply H. now right. Qed.
Lemma foldM_ext_in {A S} (f g : S -> A -> res S) l : (forall a, In a l -> forall s, f s a = g s a) -> forall s, foldM f s l = foldM g s l.
Proof. induction l as [|x l IH]; intros H s; [reflexivity|]. cbn [foldM]. rewrite (H x (or_introl eq_refl)). apply bind_ext. intros y _. apply IH. intros a Ha. apply H. now right. Qed.
Lemma is_class_eq v n : is_class v n = true -> v = JStr (txt n).
Proof. destruct v; try discriminate. cbn [is_class]. intros H. apply teqb_eq in H. now subst. Qed.
Lemma key_error_ok {A} (r : res A) a : key_error r = Ok a -> r = Ok a.
Proof. destruct r as [|[]]; cbn; congruence. Qed.

Section same.
Variables (text_file text_file' : text -> res text) (binary_file binary_file' : text -> res bytes).
Variable join : text -> text -> text.
Variable is_absolute : text -> bool.
Variable DEFAULT : text.
Variables int16 int10 : text -> res Z.
Variable pop : list range -> option (range * list range).
Variable order : list cat -> list cat.
Variable lower : Z -> text.
Variable nfkc : text -> text.
Variable search : bytes -> bytes -> list (Z * nat).
Variable limit : nat.
Notation make tf bf := (make_dictionary tf bf join is_absolute DEFAULT int16 int10 pop order lower nfkc search limit).

(** A Dictionary is determined by its settings and the contents of the files named in
    them: other files may differ. *)
Theorem C74_files c d :
  (forall p, named_binary join is_absolute c d p -> binary_file p = binary_file' p) ->
  (forall p, named_text join is_absolute DEFAULT c d p -> text_file p = text_file' p) ->
  make text_file binary_file c d = make text_file' binary_file' c d.
Proof.
  intros B T. unfold make_dictionary.
  apply bind_ext. intros sp Hsp. change DICT_PATH_KEY with (txt "systemDict") in Hsp. destruct (conf_get c (txt "systemDict")) as [[| | |p| |]|] eqn:E1; try discriminate. cbn [as_path] in Hsp. injection Hsp as <-.
  change (to_absolute_resource_path join is_absolute d p) with (place join is_absolute d p). rewrite (B _ (NB_system _ _ _ _ _ E1)).
  apply bind_ext. intros sf _. apply bind_ext. intros ds _. apply bind_ext. intros cp Hcp. unfold char_def_path in Hcp. change CHAR_DEF_KEY with (txt "characterDefinitionFile") in Hcp.
  destruct (conf_get c (txt "characterDefinitionFile")) as [[| | |q| |]|] eqn:E2; try discriminate. cbn [as_path bind] in Hcp. injection Hcp as <-.
  change (to_absolute_resource_path join is_absolute d q) with (place join is_absolute d q). rewrite (T _ (NT_chars _ _ _ _ _ _ E2)).
  apply bind_ext. intros cf _. apply bind_ext. intros table _. apply bind_ext. intros ins Hi.
  assert (EI : mapM (set_up_input text_file join DEFAULT) ins = mapM (set_up_input text_file' join DEFAULT) ins).
  { apply mapM_ext_in. intros a Ha. destruct a as [|w]; [|reflexivity]. cbn [set_up_input]. rewrite T; [reflexivity|].
    pose proof (plugins_inv _ _ _ _ Hi) as F. rewrite Forall_forall in F. destruct (F _ Ha) as (objs & o & C1 & C2 & x & Hx & Mx). unfold get_input_text_plugin in Mx. apply key_error_ok, bind_ok in Mx as (cl & Ecl & Mx).
    destruct (item_inv _ _ _ _ _ C2 Hx Ecl) as (f & -> & -> & Ef). destruct (is_class cl _) eqn:K; [|destruct (is_class cl _) in Mx; [apply bind_ok in Mx as (? & _ & Mx)|]; discriminate].
    apply is_class_eq in K. subst cl. eapply NT_rewrite; [exact C1|exact Hx|exact Ef]. }
  rewrite EI. apply bind_ext. intros ins' _. apply bind_ext. intros oovs Ho. destruct oovs as [|o1 o2]; [reflexivity|].
  assert (EO : mapM (set_up_oov text_file join int10 (ds_grammar ds) d) (o1 :: o2) = mapM (set_up_oov text_file' join int10 (ds_grammar ds) d) (o1 :: o2)).
  { apply mapM_ext_in. intros a Ha. destruct a as [a b|w]; [|reflexivity]. cbn [set_up_oov].
    pose proof (plugins_inv _ _ _ _ Ho) as F. rewrite Forall_forall in F. destruct (F _ Ha) as (objs & o & C1 & C2 & x & Hx & Mx). unfold get_oov_plugin in Mx. apply key_error_ok, bind_ok in Mx as (cl & Ecl & Mx).
    destruct (item_inv _ _ _ _ _ C2 Hx Ecl) as (f & -> & -> & Ef). destruct (is_class cl _) eqn:K.
    2:{ destruct (is_class cl _) in Mx; [|discriminate]. repeat (apply bind_ok in Mx as (? & _ & Mx)). discriminate. }
    apply is_class_eq in K. subst cl. apply bind_ok in Mx as (a' & Ka & Mx). apply bind_ok in Mx as (b' & Kb & Mx). injection Mx as -> ->.
    assert (G : forall k p, In k [txt "charDef"; txt "unkDef"] -> conf_get f k = Some (JStr p) -> text_file (join d p) = text_file' (join d p)).
    { intros k p0 Hk Hp. apply T. eapply NT_mecab; [exact C1|exact Hx|exact Ef|exact Hk|exact Hp]. }
    apply bind_ext. intros pa Hpa. destruct a as [| | |ta| |]; try discriminate. cbn [as_path] in Hpa. injection Hpa as <-. destruct (jget_inv _ _ _ Ka) as (f1 & [= <-] & Ka'). rewrite (G (txt "charDef") ta (or_introl eq_refl) Ka').
    apply bind_ext. intros cf1 _. apply bind_ext. intros pr _. apply bind_ext. intros pb Hpb. destruct b as [| | |tb| |]; try discriminate. cbn [as_path] in Hpb. injection Hpb as <-. destruct (jget_inv _ _ _ Kb) as (f1 & [= <-] & Kb').
    rewrite (G (txt "unkDef") tb (or_intror (or_introl eq_refl)) Kb'). reflexivity. }
  rewrite EO. apply bind_ext. intros oovs' _. apply bind_ext. intros p0 _. apply bind_ext. intros ps _. apply bind_ext. intros ups Hu.
  f_equal. apply foldM_ext_in. intros a Ha s. rewrite B; [reflexivity|]. change USER_DICT_PATH_KEY with (txt "userDict") in Hu.
  destruct (conf_get c (txt "userDict")) as [[| | | |l|]|] eqn:E3; try discriminate; [|injection Hu as <-; destruct Ha].
  apply mapM_all in Hu. clear - Hu Ha E3. assert (G : exists v, In v l /\ (p <- as_path v ;; Ok (to_absolute_resource_path join is_absolute d p)) = Ok a).
  { clear E3. induction Hu as [|v w l ups H1 H2 IH]; [destruct Ha|]. destruct Ha as [->|Ha]; [exists v; split; [now left|exact H1]|]. destruct (IH Ha) as (v' & I & K). exists v'. split; [now right|exact K]. }
  destruct G as (v & I & K). destruct v as [| | |t| |]; try discriminate. cbn [as_path bind] in K. injection K as <-. eapply NB_user; [exact E3|exact I].
Qed.

(** Dictionaries made before, settings changed before and failures before have no effect. *)
Theorem C74_history load installed dirname SETTING mentions st st' config_path resource_dir dict_type :
  snd (new_dictionary text_file binary_file join is_absolute DEFAULT int16 int10 pop order lower nfkc search limit load installed dirname SETTING mentions st config_path resource_dir dict_type) =
  snd (new_dictionary text_file binary_file join is_absolute DEFAULT int16 int10 pop order lower nfkc search limit load installed dirname SETTING mentions st' config_path resource_dir dict_type).
Proof.
  unfold new_dictionary, set_up. cbv zeta. destruct (load _) as [c|e]; [|reflexivity]. destruct dict_type as [t|].
  - destruct (existsb _ _); [|reflexivity]. match goal with |- context [match ?x with Ok _ => _ | Err _ => _ end] => destruct x end; [|reflexivity]. destruct (find_dict_path _ _); reflexivity.
  - destruct (match conf_get c DICT_PATH_KEY with Some _ => _ | None => _ end); [reflexivity|]. destruct (find_dict_path _ _); reflexivity.
Qed.
End same.
Print Assumptions C74_files.
Print Assumptions C74_history.

(** ** A rewrite.def in the resource directory is not read *)
Definition own_conf : conf := toy_conf ++ [(txt "inputTextPlugin", JList [toy_json [("class", JStr (txt "sudachipy.plugin.input_text.DefaultInputTextPlugin"))]%string])].
Definition own_text_file (resource package : text) (p : text) : res text :=
  if teqb p (txt "/res/rewrite.def") then Ok resource else if teqb p (txt "/default/rewrite.def") then Ok package else toy_text_file p.
Definition own_make (resource package : text) : res made :=
  make_dictionary (own_text_file resource package) toy_binary_file toy_join toy_absolute (txt "/default") sample_int16 sample_int10 pop_first (fun l => l) (fun x => [x]) (fun t => t) toy_search 10 own_conf toy_dir.
(** x is rewritten to A *)
Definition own_rule : text := [120; 9; 65] ++ lf.
Theorem C74_resource_dir_refuted :
  (forall r r' k, own_make r k = own_make r' k) /\
  exists m m', own_make own_rule [] = Ok m /\ own_make [] own_rule = Ok m' /\
    answers m [120] ModeC = Ok [([120], -1, 0, true, P1)] /\ answers m' [120] ModeC = Ok [([120], -1, 0, true, P2)] /\ P1 <> P2.
Proof.
  split.
  - intros r r' k. unfold own_make.
    refine (C74_files (own_text_file r k) (own_text_file r' k) toy_binary_file toy_binary_file toy_join toy_absolute (txt "/default") sample_int16 sample_int10 pop_first (fun l => l) (fun x => [x]) (fun t => t) toy_search 10 own_conf toy_dir (fun p _ => eq_refl) _). intros p H. unfold own_text_file.
    assert (E : teqb p (txt "/res/rewrite.def") = false); [|now rewrite E].
    destruct H as [p C|l o key p C I K KI V|l o C I K].
    + vm_compute in C. injection C as <-. vm_compute. reflexivity.
    + vm_compute in C. injection C as <-.
      destruct I as [I|[I|[]]]; injection I as <-; [|vm_compute in K; discriminate].
      destruct KI as [<-|[<-|[]]]; vm_compute in V; injection V as <-; vm_compute; reflexivity.
    + vm_compute. reflexivity.
  - destruct (own_make own_rule []) as [m|] eqn:E; [|vm_compute in E; discriminate]. destruct (own_make [] own_rule) as [m'|] eqn:E'; [|vm_compute in E'; discriminate].
    exists m, m'. split; [reflexivity|]. split; [reflexivity|].
    assert (X : (m1 <- own_make own_rule [] ;; m2 <- own_make [] own_rule ;; a <- answers m1 [120] ModeC ;; b <- answers m2 [120] ModeC ;; Ok (a, b)) = Ok ([([120], -1, 0, true, P1)], [([120], -1, 0, true, P2)])) by (vm_compute; reflexivity).
    rewrite E, E' in X. cbn [bind] in X. destruct (answers m [120] ModeC); [|discriminate]. cbn [bind] in X. destruct (answers m' [120] ModeC); [|discriminate]. cbn [bind] in X. injection X as -> ->.
    split; [reflexivity|]. split; [reflexivity|]. intros Q. vm_compute in Q. discriminate Q.
Qed.
Print Assumptions C74_resource_dir_refuted.

(** A Dictionary is made in a file system with further files, and from any earlier state. *)
Example C74_nonvacuous :
  toy_make toy_conf toy_dir = Ok toy_made /\
  make_dictionary (own_text_file own_rule own_rule) toy_binary_file toy_join toy_absolute (txt "/default") sample_int16 sample_int10 pop_first (fun l => l) (fun x => [x]) (fun t => t) toy_search 10 toy_conf toy_dir = Ok toy_made.
Proof.
  pose proof toy_is_made as MK. split; [exact MK|]. unfold toy_make in MK. rewrite <- MK.
  refine (C74_files (own_text_file own_rule own_rule) toy_text_file toy_binary_file toy_binary_file toy_join toy_absolute (txt "/default") sample_int16 sample_int10 pop_first (fun l => l) (fun x => [x]) (fun t => t) toy_search 10 toy_conf toy_dir (fun p _ => eq_refl) _). intros p H. unfold own_text_file.
  assert (E : teqb p (txt "/res/rewrite.def") = false /\ teqb p (txt "/default/rewrite.def") = false); [|destruct E as (-> & ->); reflexivity].
  destruct H as [p C|l o key p C I K KI V|l o C I K].
  - vm_compute in C. injection C as <-. vm_compute. auto.
  - vm_compute in C. injection C as <-. destruct I as [I|[I|[]]]; injection I as <-; [|vm_compute in K; discriminate].
    destruct KI as [<-|[<-|[]]]; vm_compute in V; injection V as <-; vm_compute; auto.
  - vm_compute in C. discriminate C.
Qed.
