(** C73: the number of user dictionaries. *)
From Coq Require Import String Ascii List ZArith Lia Bool Arith.
From Verif Require Import Base Utf8 M_Builder M_CharCategory M_InputText M_InputPlugins M_Lattice M_Oov M_Tokenizer M_NumericParser M_PathRewrite M_Morphemes
  M_Shipped M_Bytes M_DicReader M_DicBuilder M_LexiconSet M_Front M_Resource M_Setup S_Resource
  P_DicToy Prop_Format P_LexiconSet P_Config Prop_Lexicon Prop_Resource P_Setup Prop_System.
Import ListNotations.
Open Scope list_scope.
Open Scope Z_scope.

(** The identities of the lexicons are the numbers before their count. *)
Definition numbered (s : lexset) : Prop := forall x, In x (ls_lexicons s) -> (fst x < length (ls_lexicons s))%nat.
Lemma add_numbered s lx o : numbered s -> numbered (ls_add s (length (ls_lexicons s), lx) o) /\ length (ls_lexicons (ls_add s (length (ls_lexicons s), lx) o)) = S (length (ls_lexicons s)).
Proof.
  intros N. unfold ls_add. cbn [fst]. destruct (existsb _ _) eqn:E.
  - apply existsb_exists in E as (x & Hx & Ex). apply Nat.eqb_eq in Ex. specialize (N x Hx). lia.
  - split; [|cbn [ls_lexicons]; rewrite app_length; cbn [length]; lia].
    intros x Hx. cbn [ls_lexicons] in *. rewrite app_length. cbn [length]. apply in_app_or in Hx as [Hx|[<-|[]]]; [specialize (N x Hx)|cbn [fst]]; lia.
Qed.

Section many.
Variable limit : nat.
Variable analyse : grammar -> lexset -> text -> res (Z * nat).
Notation read_user := (read_user_dictionary limit analyse).
Notation load := (load_dictionaries limit analyse).

Lemma read_user_grows ds f ds' : numbered (ds_lexicon ds) -> read_user ds f = Ok ds' ->
  (length (ls_lexicons (ds_lexicon ds)) < 16)%nat /\ numbered (ds_lexicon ds') /\ length (ls_lexicons (ds_lexicon ds')) = S (length (ls_lexicons (ds_lexicon ds))).
Proof.
  intros N H. unfold read_user_dictionary in H. destruct (ls_is_full _) eqn:F; [discriminate|]. apply bind_ok in H as (d & _ & H). apply bind_ok in H as (lx & _ & H). injection H as <-. cbn [ds_lexicon].
  split; [|apply add_numbered; exact N]. unfold ls_is_full, MAX_DICTIONARIES in F. apply Nat.leb_gt in F. exact F.
Qed.
Lemma fold_grows {B} (g : B -> res bytes) users : forall ds ds', numbered (ds_lexicon ds) -> foldM (fun ds p => f <- g p ;; read_user ds f) ds users = Ok ds' ->
  numbered (ds_lexicon ds') /\ length (ls_lexicons (ds_lexicon ds')) = (length users + length (ls_lexicons (ds_lexicon ds)))%nat /\ (users = [] \/ length (ls_lexicons (ds_lexicon ds')) <= 16)%nat.
Proof.
  induction users as [|u users IH]; intros ds ds' N H; cbn [foldM] in H.
  - injection H as <-. auto.
  - apply bind_ok in H as (d1 & H1 & H). apply bind_ok in H1 as (f & _ & H1). destruct (read_user_grows _ _ _ N H1) as (L & N1 & E1).
    destruct (IH _ _ N1 H) as (N' & E & D). split; [exact N'|]. split; [cbn [length]; lia|]. right. destruct D as [->|D]; [cbn [length] in E|]; lia.
Qed.
Lemma system_numbered system ds : read_system_dictionary system = Ok ds -> numbered (ds_lexicon ds) /\ length (ls_lexicons (ds_lexicon ds)) = 1%nat.
Proof.
  unfold read_system_dictionary. intros H. apply bind_ok in H as (d & _ & H). destruct (d_grammar d); [|discriminate]. injection H as <-.
  split; [|reflexivity]. intros x [<-|[]]. cbn. lia.
Qed.
Lemma fold_ext {A S} (f g : S -> A -> res S) l : (forall s a, f s a = g s a) -> forall s, foldM f s l = foldM g s l.
Proof. intros E. induction l as [|a l IH]; intros s; cbn [foldM]; [reflexivity|]. rewrite E. destruct (g s a); cbn [bind]; auto. Qed.
Lemma load_grows system users ds : load system users = Ok ds ->
  numbered (ds_lexicon ds) /\ length (ls_lexicons (ds_lexicon ds)) = S (length users) /\ (length users <= 15)%nat.
Proof.
  unfold load_dictionaries. intros H. apply bind_ok in H as (d0 & H0 & H). destruct (system_numbered _ _ H0) as (N & L).
  rewrite (fold_ext _ (fun ds p => f <- (fun x => Ok x) p ;; read_user ds f)) in H by reflexivity.
  destruct (fold_grows _ _ _ _ N H) as (N' & E & D). rewrite L in E. split; [exact N'|]. split; [lia|]. destruct D as [->|D]; cbn [length]; lia.
Qed.

(** ** C73 *)
(** More than fifteen user dictionaries are never loaded ... *)
Theorem C73_too_many system users : (15 < length users)%nat -> exists e, load system users = Err e.
Proof. intros L. destruct (load system users) as [ds|e] eqn:E; [|eauto]. apply load_grows in E as (_ & _ & X). lia. Qed.
(** ... and when the first fifteen are good the error is a ValueError, whatever the
    sixteenth file is. *)
Theorem C73_reported system users u more ds : load system users = Ok ds -> length users = 15%nat -> load system (users ++ u :: more) = Err EValue.
Proof.
  intros H L. pose proof (load_grows _ _ _ H) as (_ & E & _). unfold load_dictionaries in *. apply bind_ok in H as (d0 & -> & H). cbn [bind].
  rewrite foldM_app, H. cbn [bind foldM]. unfold read_user_dictionary. unfold ls_is_full. rewrite E, L. reflexivity.
Qed.
(** Up to fifteen files that open, whose words have costs, are loaded. *)
Definition with_costs (lx : lexicon) : Prop := forall i, (i < lx_size lx)%nat -> exists c, lx_cost lx (Z.of_nat i) = Ok c /\ c <> -32768.
Lemma costs_stay internal lx : with_costs lx -> calculate_cost limit internal lx = Ok lx.
Proof.
  intros W. unfold calculate_cost. assert (H : forall l, (forall i, In i l -> (i < lx_size lx)%nat) -> foldM (calculate_one limit internal) lx l = Ok lx).
  { induction l as [|i l IH]; intros H; [reflexivity|]. cbn [foldM]. destruct (W i) as (c & C & N); [apply H; now left|]. unfold calculate_one at 1. rewrite C. cbn [bind].
    destruct (c =? -32768) eqn:E; [Zbool; congruence|]. cbn [negb bind]. apply IH. intros j Hj. apply H. now right. }
  apply H. intros i Hi. apply in_seq in Hi. lia.
Qed.
Theorem C73_enough system users ds0 : read_system_dictionary system = Ok ds0 -> (length users <= 15)%nat ->
  (forall u, In u users -> exists d, from_user_dictionary u = Ok d /\ with_costs (d_lexicon d)) ->
  exists ds, load system users = Ok ds /\ length (ls_lexicons (ds_lexicon ds)) = S (length users).
Proof.
  intros H0 L U. assert (X : exists ds, load system users = Ok ds); [|destruct X as (ds & X); exists ds; split; [exact X|apply (load_grows _ _ _ X)]].
  unfold load_dictionaries. rewrite H0. cbn [bind]. destruct (system_numbered _ _ H0) as (N & E).
  assert (G : forall us ds, numbered (ds_lexicon ds) -> (length us + length (ls_lexicons (ds_lexicon ds)) <= 16)%nat -> (forall u, In u us -> In u users) -> exists ds', foldM read_user ds us = Ok ds').
  { clear - U. induction us as [|u us IH]; intros ds N E I; [exists ds; reflexivity|]. cbn [foldM length] in *.
    destruct (U u) as (d & D & W); [apply I; now left|].
    assert (R : exists ds1, read_user ds u = Ok ds1).
    { unfold read_user_dictionary, ls_is_full, MAX_DICTIONARIES. destruct (Nat.leb_spec 16 (length (ls_lexicons (ds_lexicon ds)))) as [Q|Q]; [lia|]. rewrite D. cbn [bind]. rewrite (costs_stay _ _ W). cbn [bind]. eexists. reflexivity. }
    destruct R as (ds1 & R). rewrite R. cbn [bind]. destruct (read_user_grows _ _ _ N R) as (_ & N1 & E1). apply IH; [exact N1|lia|]. intros v Hv. apply I. now right. }
  apply G; [exact N|lia|auto].
Qed.
End many.
Print Assumptions C73_too_many.
Print Assumptions C73_reported.
Print Assumptions C73_enough.

(** A Dictionary with more than fifteen user dictionaries in its settings is not made. *)
Lemma mapM_length {A B} (f : A -> res B) l : forall r, mapM f l = Ok r -> length r = length l.
Proof. induction l as [|x l IH]; intros r H; cbn [mapM] in H; [injection H as <-; reflexivity|]. apply bind_ok in H as (y & _ & H). apply bind_ok in H as (ys & E & H). injection H as <-. cbn [length]. f_equal. auto. Qed.
Theorem C73_dictionary text_file binary_file join is_absolute DEFAULT int16 int10 pop order lower nfkc search limit c d paths :
  conf_get c (txt "userDict") = Some (JList paths) -> (15 < length paths)%nat ->
  exists e, make_dictionary text_file binary_file join is_absolute DEFAULT int16 int10 pop order lower nfkc search limit c d = Err e.
Proof.
  intros HC L. match goal with |- exists e, ?m = _ => destruct m as [m'|e] eqn:E end; [|eauto]. exfalso. unfold make_dictionary in E.
  apply bind_ok in E as (sp & _ & E). apply bind_ok in E as (sf & _ & E). apply bind_ok in E as (ds & Hs & E). apply bind_ok in E as (cp & _ & E). apply bind_ok in E as (cf & _ & E). apply bind_ok in E as (table & _ & E).
  apply bind_ok in E as (i0 & _ & E). apply bind_ok in E as (ins & _ & E). apply bind_ok in E as (o0 & _ & E). destruct o0 as [|o1 o2]; [discriminate|]. apply bind_ok in E as (oovs & _ & E).
  apply bind_ok in E as (p0 & _ & E). apply bind_ok in E as (ps & _ & E). apply bind_ok in E as (ups & Hu & E). apply bind_ok in E as (ds' & Hf & E).
  change USER_DICT_PATH_KEY with (txt "userDict") in Hu. rewrite HC in Hu. apply mapM_length in Hu.
  destruct (system_numbered _ _ Hs) as (N & L1). destruct (fold_grows _ _ _ _ _ _ N Hf) as (_ & EL & [->|Q]); [cbn in Hu; lia|lia].
Qed.
Print Assumptions C73_dictionary.

Definition many_conf (n : nat) : conf :=
  map (fun x => if teqb (fst x) (txt "userDict") then (fst x, JList (repeat (JStr (txt "/b.dic")) n)) else x) toy_conf.
Definition many_made (n : nat) : made := match toy_make (many_conf n) toy_dir with Ok m => m | Err _ => toy_made end.
(** With eight the Dictionary is made, but 東, a word of each of them, cannot be analysed. *)
Theorem C73_used_refuted :
  toy_make (many_conf 8) toy_dir = Ok (many_made 8) /\ length (ls_lexicons (ds_lexicon (md_set (many_made 8)))) = 9%nat /\
  snd (M_Tokenizer.run (created (fun l => l) (fun x => [x]) (fun t => t) toy_search 10 (many_made 8)) new_lattice [26481] ModeC) = Err EOverflow.
Proof.
  split; [|split; vm_compute; reflexivity]. unfold many_made. destruct (toy_make (many_conf 8) toy_dir) eqn:E; [reflexivity|].
  assert (X : match toy_make (many_conf 8) toy_dir with Ok _ => true | Err _ => false end = true) by (vm_compute; reflexivity). rewrite E in X. discriminate X.
Qed.
Print Assumptions C73_used_refuted.

(** The hypotheses are met: fifteen copies of a dictionary are loaded, a sixteenth is not. *)
Definition one_user : bytes := dc_file (nth 1 toy_users toy_system).
Example C73_nonvacuous :
  (exists d, from_user_dictionary one_user = Ok d /\ with_costs (d_lexicon d) /\ lx_size (d_lexicon d) = 1%nat) /\
  (exists ds0, read_system_dictionary toy_bytes = Ok ds0) /\
  (exists ds, load_dictionaries 10 toy_analyse toy_bytes (repeat one_user 15) = Ok ds) /\
  load_dictionaries 10 toy_analyse toy_bytes (repeat one_user 16) = Err EValue /\
  (exists paths, conf_get (many_conf 16) (txt "userDict") = Some (JList paths) /\ length paths = 16%nat) /\ toy_make (many_conf 16) toy_dir = Err EValue.
Proof.
  split.
  { destruct (from_user_dictionary one_user) as [d|] eqn:E; [|vm_compute in E; discriminate]. exists d. split; [reflexivity|].
    assert (X : (d <- from_user_dictionary one_user ;; c <- lx_cost (d_lexicon d) 0 ;; Ok (lx_size (d_lexicon d), c)) = Ok (1%nat, -5)) by (vm_compute; reflexivity).
    rewrite E in X. cbn [bind] in X. destruct (lx_cost (d_lexicon d) 0) as [c|] eqn:C; [|discriminate]. cbn [bind] in X. injection X as X1 X2.
    split; [|exact X1]. intros i Hi. rewrite X1 in Hi. replace i with 0%nat by lia. exists c. split; [exact C|lia]. }
  split. { destruct (read_system_dictionary toy_bytes) as [d|] eqn:E; [eauto|vm_compute in E; discriminate]. }
  split. { destruct (load_dictionaries 10 toy_analyse toy_bytes (repeat one_user 15)) as [d|] eqn:E; [eauto|vm_compute in E; discriminate]. }
  split; [vm_compute; reflexivity|]. split; [eexists; split; [vm_compute; reflexivity|reflexivity]|vm_compute; reflexivity].
Qed.
