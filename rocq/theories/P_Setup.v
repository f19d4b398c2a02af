(** Proofs about the construction of a Dictionary: what a successful construction has read. *)
From Coq Require Import String Ascii List ZArith Lia Bool Arith Sorting.Sorted.
From Verif Require Import Base Utf8 M_Builder M_CharCategory M_InputText M_InputPlugins M_Lattice M_Oov M_Tokenizer M_NumericParser M_PathRewrite M_Morphemes
  M_Shipped M_Bytes M_DicReader M_DicBuilder M_LexiconSet M_Front M_Resource M_Setup S_Resource
  P_Bytes P_DicFormat P_DicWrite P_DicOpen P_DicGrammar P_DicSource P_DicLexicon P_DicFile P_LexiconSet Prop_Lexicon.
Import ListNotations.
Open Scope list_scope.
Open Scope Z_scope.

Section setup.
Variable text_file : text -> res text.
Variable binary_file : text -> res bytes.
Variable join : text -> text -> text.
Variable is_absolute : text -> bool.
Variable DEFAULT_RESOURCEDIR : text.
Variable int16 int10 : text -> res Z.
Variable pop : list range -> option (range * list range).
Variable order : list cat -> list cat.
Variable lower : Z -> text.
Variable nfkc : text -> text.
Variable search : bytes -> bytes -> list (Z * nat).
Variable limit : nat.
Notation make_dictionary := (make_dictionary text_file binary_file join is_absolute DEFAULT_RESOURCEDIR int16 int10 pop order lower nfkc search limit).
Notation internal_cost := (internal_cost order lower nfkc search limit).
Definition located (d p : text) : text := if is_absolute p then p else join d p.

Definition user_paths (c : conf) (us : list text) : Prop :=
  (conf_get c USER_DICT_PATH_KEY = None /\ us = []) \/ conf_get c USER_DICT_PATH_KEY = Some (JList (map JStr us)).

Record construction (c : conf) (d : text) (m : made) (sf : bytes) (ufs : list bytes) (g : grammar) (ins : list input_spec) (oovs : list oov_spec) (paths : list path_spec) : Prop := {
  co_system : exists sp, conf_get c DICT_PATH_KEY = Some (JStr sp) /\ binary_file (located d sp) = Ok sf;
  co_chars : exists cp cf, conf_get c CHAR_DEF_KEY = Some (JStr cp) /\ text_file (located d cp) = Ok cf /\ read_character_definition int16 pop cf = Ok (md_table m);
  co_users : exists us, user_paths c us /\ Forall2 (fun p f => binary_file (located d p) = Ok f) us ufs;
  co_loaded : load_dictionaries limit (internal_cost (md_table m) (md_inputs m) (md_providers m)) sf ufs = Ok (md_set m);
  co_grammar : exists dict, from_system_dictionary sf = Ok dict /\ d_grammar dict = Some g;
  co_inputs : get_plugins get_input_text_plugin c "inputTextPlugin" = Ok ins /\
    Forall2 (fun s p => set_up_input text_file join DEFAULT_RESOURCEDIR s = Ok p) ins (md_inputs m);
  co_oovs : get_plugins get_oov_plugin c "oovProviderPlugin" = Ok oovs /\ oovs <> [] /\
    Forall2 (fun s p => set_up_oov text_file join int10 g d s = Ok p) oovs (md_providers m);
  co_paths : get_plugins get_path_rewrite_plugin c "pathRewritePlugin" = Ok paths /\
    Forall2 (fun s p => set_up_path g s = Ok p) paths (md_rewriters m);
}.

Lemma mapM_all {A B} (f : A -> res B) l l' : mapM f l = Ok l' -> Forall2 (fun a b => f a = Ok b) l l'.
Proof.
  revert l'. induction l as [|a l IH]; intros l' H; cbn [mapM] in H; [injection H as <-; constructor|].
  apply bind_ok in H as (b & Hb & H). apply bind_ok in H as (bs & Hbs & H). injection H as <-. constructor; auto.
Qed.
Lemma as_path_ok v p : as_path v = Ok p -> v = JStr p.
Proof. destruct v; try discriminate. now intros [= ->]. Qed.

Lemma make_inv c d m : make_dictionary c d = Ok m -> exists sf ufs g ins oovs paths, construction c d m sf ufs g ins oovs paths.
Proof.
  unfold M_Setup.make_dictionary. intros H.
  apply bind_ok in H as (sp & Hsp & H). apply bind_ok in H as (sf & Hsf & H). apply bind_ok in H as (ds & Hds & H).
  apply bind_ok in H as (cp & Hcp & H). apply bind_ok in H as (cf & Hcf & H). apply bind_ok in H as (table & Ht & H).
  apply bind_ok in H as (ins & Hi & H). apply bind_ok in H as (ins' & Hi' & H). apply bind_ok in H as (oovs & Ho & H).
  assert (NE : oovs <> []) by (intros ->; discriminate H).
  assert (H' : (oovs' <- mapM (set_up_oov text_file join int10 (ds_grammar ds) d) oovs ;;
    paths <- get_plugins get_path_rewrite_plugin c "pathRewritePlugin" ;; paths <- mapM (set_up_path (ds_grammar ds)) paths ;;
    ups <- (match conf_get c USER_DICT_PATH_KEY with
            | Some (JList l) => mapM (fun v => p <- as_path v ;; Ok (to_absolute_resource_path join is_absolute d p)) l
            | Some _ => Err EType
            | None => Ok []
            end) ;;
    ds <- foldM (fun ds p => f <- binary_file p ;; read_user_dictionary limit (internal_cost table ins' oovs') ds f) ds ups ;;
    Ok (Made ds table ins' oovs' paths)) = Ok m) by (destruct oovs; [congruence|exact H]). clear H. rename H' into H.
  apply bind_ok in H as (oovs' & Ho' & H). apply bind_ok in H as (paths & Hp & H). apply bind_ok in H as (paths' & Hp' & H).
  apply bind_ok in H as (ups & Hu & H). apply bind_ok in H as (ds' & Hd & H). injection H as <-.
  assert (US : exists us, user_paths c us /\ ups = map (located d) us).
  { unfold user_paths. destruct (conf_get c USER_DICT_PATH_KEY) as [v|]; [|injection Hu as <-; exists []; auto].
    destruct v as [| | | |l|]; try discriminate Hu. apply mapM_all in Hu. clear - Hu.
    assert (G : exists us, l = map JStr us /\ ups = map (located d) us).
    { induction Hu as [|v p l ups Hv Hu (us & -> & ->)]; [exists []; auto|]. apply bind_ok in Hv as (q & Hq & [= <-]). apply as_path_ok in Hq as ->.
      exists (q :: us). auto. }
    destruct G as (us & -> & ->). exists us. auto. }
  destruct US as (us & UP & ->).
  assert (G : exists ufs, Forall2 (fun p f => binary_file (located d p) = Ok f) us ufs /\ foldM (read_user_dictionary limit (internal_cost table ins' oovs')) ds ufs = Ok ds').
  { clear - Hd. revert ds Hd. induction us as [|p us IH]; intros ds Hd; cbn [map foldM] in Hd; [injection Hd as <-; exists []; split; constructor|].
    apply bind_ok in Hd as (d1 & H1 & Hd). apply bind_ok in H1 as (f & Hf & H1). destruct (IH _ Hd) as (ufs & F & E). exists (f :: ufs). split; [constructor; auto|].
    cbn [foldM]. now rewrite H1. }
  destruct G as (ufs & Fu & El).
  assert (HG : exists dict, from_system_dictionary sf = Ok dict /\ d_grammar dict = Some (ds_grammar ds)).
  { unfold read_system_dictionary in Hds. apply bind_ok in Hds as (dict & E & Hds). exists dict. split; [exact E|].
    destruct (d_grammar dict); [|discriminate]. now injection Hds as <-. }
  exists sf, ufs, (ds_grammar ds), ins, oovs, paths. constructor; cbn [md_table md_inputs md_providers md_set md_rewriters].
  - exists sp. destruct (conf_get c DICT_PATH_KEY) as [v|]; [|discriminate]. apply as_path_ok in Hsp as ->. split; [reflexivity|exact Hsf].
  - unfold char_def_path in Hcp. destruct (conf_get c CHAR_DEF_KEY) as [v|]; [|discriminate]. apply bind_ok in Hcp as (p & Hv & [= <-]). apply as_path_ok in Hv as ->.
    exists p, cf. auto.
  - exists us. auto.
  - unfold load_dictionaries. rewrite Hds. exact El.
  - exact HG.
  - split; [exact Hi|now apply mapM_all].
  - split; [exact Ho|]. split; [exact NE|now apply mapM_all].
  - split; [exact Hp|now apply mapM_all].
Qed.
End setup.

(** ** Items of the configuration *)
(** [o] is an item of the list [key] of the settings, for the plugin [class]. *)
Definition plugin (c : conf) (key class : string) (o : list (text * json)) : Prop :=
  exists objs, conf_get c (txt key) = Some (JList objs) /\ In (JObj o) objs /\ conf_get o (txt "class") = Some (JStr (txt class)).
Lemma key_error_ok {A} (r : res A) x : key_error r = Ok x -> r = Ok x.
Proof. destruct r as [|e]; [auto|]. destruct e; discriminate. Qed.
Lemma jget_inv o key v : jget o key = Ok v -> exists f, o = JObj f /\ conf_get f key = Some v.
Proof. destruct o as [| | | | |f]; try discriminate. cbn [jget]. intros H. exists f. split; [reflexivity|]. destruct (conf_get f key); [now injection H as ->|discriminate]. Qed.
Lemma is_class_inv v s : is_class v s = true -> v = JStr (txt s).
Proof. destruct v; try discriminate. cbn [is_class]. intros H. apply teqb_eq in H as ->. reflexivity. Qed.

Lemma plugins_inv (c : conf) {A} (make : json -> res A) key specs : get_plugins make c key = Ok specs -> Forall (fun s => exists objs o, conf_get c (txt key) = Some objs /\ jitems objs = Ok o /\ exists x, In x o /\ make x = Ok s) specs.
Proof.
  unfold get_plugins. change (lit key) with (txt key). destruct (conf_get c (txt key)) as [v|]; [|intros [= <-]; constructor]. intros H. apply bind_ok in H as (objs & Ej & H). apply mapM_all in H.
  apply Forall_forall. intros s Hs. exists v, objs. split; [reflexivity|]. split; [exact Ej|]. clear - H Hs. induction H as [|x y l l' E F IH]; [destruct Hs|]. destruct Hs as [->|Hs]; [exists x; split; [now left|exact E]|].
  destruct (IH Hs) as (x' & A1 & A2). exists x'. split; [now right|exact A2].
Qed.
(** An item with a class is an object of a list. *)
Lemma item_inv objs l x key v : jitems objs = Ok l -> In x l -> jget x key = Ok v -> exists f, objs = JList l /\ x = JObj f /\ conf_get f key = Some v.
Proof.
  intros Ej Hx Ec. destruct (jget_inv _ _ _ Ec) as (f & -> & E). exists f. destruct objs; cbn [jitems] in Ej; try discriminate.
  - injection Ej as <-. apply in_map_iff in Hx as (? & X & _). discriminate.
  - injection Ej as <-. auto.
  - injection Ej as <-. apply in_map_iff in Hx as (? & X & _). discriminate.
Qed.

Lemma in_forall2 {A B} (R : A -> B -> Prop) l l' b : Forall2 R l l' -> In b l' -> exists a, In a l /\ R a b.
Proof. induction 1 as [|x y l l' E F IH]; intros H; [destruct H|]. destruct H as [->|H]; [exists x; split; [now left|exact E]|]. destruct (IH H) as (a & A1 & A2). exists a. split; [now right|exact A2]. Qed.

(** Where the symbols of the sound mark plugins come from *)
Definition SOUND_MARKS : string := "sudachipy.plugin.input_text.ProlongedSoundMarkInputTextPlugin".
Lemma symbol_source text_file join D c ins made k : get_plugins get_input_text_plugin c "inputTextPlugin" = Ok ins ->
  Forall2 (fun s p => set_up_input text_file join D s = Ok p) ins made -> In (SoundMarks k) made ->
  psm_symbol k = [0x30FC] \/ exists o t, plugin c "inputTextPlugin" SOUND_MARKS o /\ conf_get o (txt "replacementSymbol") = Some (JStr t) /\ psm_symbol k = t.
Proof.
  intros G F H. destruct (in_forall2 _ _ _ _ F H) as (s & Hs & E). destruct s; cbn [set_up_input] in E.
  { apply bind_ok in E as (f & _ & E). apply bind_ok in E as (cf & _ & E). discriminate. }
  injection E as ->. apply plugins_inv in G. rewrite Forall_forall in G. destruct (G _ Hs) as (objs & l & Ec & Ej & x & Hx & Ex).
  apply key_error_ok in Ex. apply bind_ok in Ex as (cl & Ecl & Ex). destruct (item_inv _ _ _ _ _ Ej Hx Ecl) as (f & -> & -> & Ef).
  destruct (is_class cl "sudachipy.plugin.input_text.DefaultInputTextPlugin"); [discriminate|].
  destruct (is_class cl "sudachipy.plugin.input_text.ProlongedSoundMarkInputTextPlugin") eqn:I; [|discriminate]. apply is_class_inv in I as ->.
  apply bind_ok in Ex as (k' & Ek & [= ->]). unfold sound_marks in Ek. apply bind_ok in Ek as (st & _ & Ek). apply bind_ok in Ek as (sy & Es & [= <-]). cbn [psm_symbol].
  cbn [jfind] in Es. destruct (conf_get f (lit "replacementSymbol")) as [v|] eqn:Ev; [|left; congruence].
  right. destruct v; try discriminate. injection Es as ->. exists f, sy. split; [exists l; auto|]. split; [exact Ev|reflexivity].
Qed.
