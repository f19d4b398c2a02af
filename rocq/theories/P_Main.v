(** Proofs about the arguments of the tool *)
From Coq Require Import String Ascii List ZArith Lia Bool Arith.
From Verif Require Import Base M_DicBuilder S_Resource M_Resource M_Setup M_Main.
Import ListNotations.
Open Scope list_scope.
Open Scope Z_scope.

(** Options as the parser [sp] reads them, with what they store *)
Inductive wr (sp : subparser) : list text -> namespace -> Prop :=
| wr_nil : wr sp [] []
| wr_flag a d l ns : is_option a = true -> option_of sp a = Some (d, AFlag) -> wr sp l ns -> wr sp (a :: l) ((d, None) :: ns)
| wr_value a d ch v l ns :
    is_option a = true -> option_of sp a = Some (d, AValue ch) -> is_option v = false ->
    match ch with Some c => existsb (teqb v) c | None => true end = true -> wr sp l ns -> wr sp (a :: v :: l) ((d, Some v) :: ns).

Definition required_ok (sp : subparser) (ns : namespace) : bool := forallb (fun d => existsb (fun x => teqb (fst x) d) ns) (sp_required sp).

Lemma wr_app : forall sp l1 n1 l2 n2, wr sp l1 n1 -> wr sp l2 n2 -> wr sp (l1 ++ l2) (n1 ++ n2).
Proof. intros sp l1 n1 l2 n2 W; induction W; intros W2; cbn; auto; econstructor; eauto. Qed.

Lemma parse_wr : forall sp l n1, wr sp l n1 -> forall rest ns fs e,
  parse_sub sp (l ++ rest) ns fs false e = parse_sub sp rest (ns ++ n1) fs false e.
Proof.
  intros sp l n1 W; induction W; intros rest n0 fs e; cbn [app parse_sub].
  - rewrite app_nil_r; reflexivity.
  - rewrite H, H0, IHW, <- app_assoc; reflexivity.
  - rewrite H, H0, H1, H2, IHW, <- app_assoc; reflexivity.
Qed.
Lemma parse_open : forall sp l n1, wr sp l n1 -> forall ns fs e,
  parse_sub sp l ns fs true e = parse_sub sp l ns fs false e.
Proof. intros sp l n1 W ns fs e; destruct W; cbn [parse_sub]; [reflexivity|rewrite H, H0; reflexivity..]. Qed.
Lemma parse_files : forall sp files rest ns l e, Forall (fun f => is_option f = false) files ->
  parse_sub sp (files ++ rest) ns (Some l) true e = parse_sub sp rest ns (Some (l ++ files)) true e.
Proof.
  intros sp; induction files as [|f r IH]; intros rest ns l e F; cbn [app parse_sub].
  - rewrite app_nil_r; reflexivity.
  - inversion F; subst. rewrite H1, IH by assumption. rewrite <- app_assoc; reflexivity.
Qed.

Lemma parse_closed : forall sp n args ns fs e ns' files, (length args <= n)%nat ->
  parse_sub sp args ns (Some fs) false e = Parsed ns' files ->
  exists n2, wr sp args n2 /\ ns' = ns ++ n2 /\ files = fs /\ e = false /\ required_ok sp ns' = true.
Proof.
  intros sp; induction n as [|n IH]; intros args ns fs e ns' files L H; destruct args as [|a r]; cbn [parse_sub length] in *; try lia.
  1,2: rewrite andb_false_r in H; fold (required_ok sp ns) in H; destruct (required_ok sp ns) eqn:R; cbn in H; [|discriminate]; destruct e; [discriminate|];
    inversion H; subst; exists []; rewrite app_nil_r; repeat split; auto; constructor.
  destruct (is_option a) eqn:O.
  - destruct (option_of sp a) as [[d [| |ch]]|] eqn:Q.
    + discriminate.
    + apply IH in H; [|lia]. destruct H as (n2 & W & -> & E & E2 & R). exists ((d, None) :: n2). rewrite <- app_assoc in *. repeat split; auto. econstructor; eauto.
    + destruct r as [|v r]; [discriminate|]. destruct (is_option v) eqn:V; [discriminate|].
      destruct (match ch with Some l => existsb (teqb v) l | None => true end) eqn:C; [|discriminate].
      apply IH in H; [|cbn [length] in L; lia]. destruct H as (n2 & W & -> & E & E2 & R). exists ((d, Some v) :: n2). rewrite <- app_assoc in *. repeat split; auto. econstructor; eauto.
    + apply IH in H; [|lia]. destruct H as (n2 & W & E0 & E & E2 & R). discriminate.
  - apply IH in H; [|lia]. destruct H as (n2 & W & E0 & E & E2 & R). discriminate.
Qed.
Lemma parse_running : forall sp args ns fs e ns' files,
  parse_sub sp args ns (Some fs) true e = Parsed ns' files ->
  exists mid l2 n2, args = mid ++ l2 /\ wr sp l2 n2 /\ ns' = ns ++ n2 /\ files = fs ++ mid /\ Forall (fun f => is_option f = false) mid /\ e = false /\ required_ok sp ns' = true.
Proof.
  intros sp; induction args as [|a r IH]; intros ns fs e ns' files H.
  - change (parse_sub sp [] ns (Some fs) true e) with (parse_sub sp [] ns (Some fs) false e) in H.
    apply (parse_closed sp 0) in H; [|cbn; lia]. destruct H as (n2 & W & E1 & E2 & E3 & R).
    exists [], [], n2. rewrite (app_nil_r fs). repeat split; auto.
  - destruct (is_option a) eqn:O.
    + assert (H' : parse_sub sp (a :: r) ns (Some fs) false e = Parsed ns' files).
      { cbn [parse_sub] in *. rewrite O in *. exact H. }
      apply (parse_closed sp (length (a :: r))) in H'; [|lia]. destruct H' as (n2 & W & E1 & E2 & E3 & R).
      exists [], (a :: r), n2. rewrite (app_nil_r fs). repeat split; auto.
    + cbn [parse_sub] in H. rewrite O in H. apply IH in H. destruct H as (mid & l2 & n2 & -> & W & E1 & E2 & F & E3 & R).
      exists (a :: mid), l2, n2. rewrite <- app_assoc in E2. repeat split; auto.
Qed.
Lemma parse_first : forall sp n args ns e ns' files, (length args <= n)%nat ->
  parse_sub sp args ns None false e = Parsed ns' files ->
  exists l1 n1 l2 n2, args = l1 ++ files ++ l2 /\ wr sp l1 n1 /\ wr sp l2 n2 /\ ns' = ns ++ n1 ++ n2 /\ Forall (fun f => is_option f = false) files
    /\ e = false /\ required_ok sp ns' = true /\ (sp_plus sp = true -> files <> []).
Proof.
  intros sp; induction n as [|n IH]; intros args ns e ns' files L H; destruct args as [|a r]; cbn [parse_sub length] in *; try lia.
  1,2: rewrite andb_true_r in H; destruct (sp_plus sp) eqn:P; [discriminate|]; fold (required_ok sp ns) in H; destruct (required_ok sp ns) eqn:R; cbn in H; [|discriminate];
    destruct e; [discriminate|]; inversion H; subst; exists [], [], [], []; rewrite ?app_nil_r; repeat split; auto; try constructor; discriminate.
  destruct (is_option a) eqn:O.
  - destruct (option_of sp a) as [[d [| |ch]]|] eqn:Q.
    + discriminate.
    + apply IH in H; [|lia]. destruct H as (l1 & n1 & l2 & n2 & -> & W & W2 & -> & F & E & R & P).
      exists (a :: l1), ((d, None) :: n1), l2, n2. rewrite <- app_assoc in *. repeat split; auto. econstructor; eauto.
    + destruct r as [|v r]; [discriminate|]. destruct (is_option v) eqn:V; [discriminate|].
      destruct (match ch with Some l => existsb (teqb v) l | None => true end) eqn:C; [|discriminate].
      apply IH in H; [|cbn [length] in L; lia]. destruct H as (l1 & n1 & l2 & n2 & -> & W & W2 & -> & F & E & R & P).
      exists (a :: v :: l1), ((d, Some v) :: n1), l2, n2. rewrite <- app_assoc in *. repeat split; auto. econstructor; eauto.
    + apply IH in H; [|lia]. destruct H as (l1 & n1 & l2 & n2 & _ & _ & _ & _ & _ & E & _). discriminate.
  - apply parse_running in H. destruct H as (mid & l2 & n2 & -> & W & -> & -> & F & E & R).
    exists [], [], l2, n2. cbn [app]. repeat split; auto; try constructor; auto. discriminate.
Qed.

Lemma parse_iff : forall sp args ns files,
  parse_sub sp args [] None false false = Parsed ns files <->
  exists l1 n1 l2 n2, args = l1 ++ files ++ l2 /\ wr sp l1 n1 /\ wr sp l2 n2 /\ ns = n1 ++ n2 /\ Forall (fun f => is_option f = false) files
    /\ required_ok sp ns = true /\ (sp_plus sp = true -> files <> []).
Proof.
  intros sp args ns files. split.
  - intros H. apply (parse_first sp (length args)) in H; [|lia].
    destruct H as (l1 & n1 & l2 & n2 & E & W & W2 & E2 & F & _ & R & P). exists l1, n1, l2, n2. repeat split; auto.
  - intros (l1 & n1 & l2 & n2 & -> & W & W2 & -> & F & R & P).
    rewrite (parse_wr _ _ _ W). cbn [app]. destruct files as [|f r].
    + cbn [app]. replace l2 with (l2 ++ []) by apply app_nil_r. rewrite (parse_wr _ _ _ W2). cbn [parse_sub].
      destruct (sp_plus sp); [destruct (P eq_refl); reflexivity|]. fold (required_ok sp (n1 ++ n2)). rewrite R. reflexivity.
    + inversion F; subst. cbn [app parse_sub]. rewrite H1, parse_files by assumption. cbn [app].
      rewrite (parse_open _ _ _ W2). replace l2 with (l2 ++ []) by apply app_nil_r. rewrite (parse_wr _ _ _ W2). cbn [parse_sub].
      rewrite andb_false_r. fold (required_ok sp (n1 ++ n2)). rewrite R. reflexivity.
Qed.

(** ** What was stored, by the options themselves *)
From Verif Require Import P_DicOpen S_Main.

Lemma teqb_refl : forall a, teqb a a = true. Proof. intros a. apply teqb_eq. reflexivity. Qed.

Lemma find_app' : forall A (p : A -> bool) l1 l2, find p (l1 ++ l2) = match find p l1 with Some x => Some x | None => find p l2 end.
Proof. intros A p; induction l1 as [|x r IH]; intros l2; cbn; [reflexivity|]. destruct (p x); [reflexivity|apply IH]. Qed.

Lemma value_last : forall O (st : O -> text * option text) d (f : O -> option text) os,
  (forall o, In o os -> f o = if teqb (fst (st o)) d then snd (st o) else None) ->
  (forall o, In o os -> fst (st o) = d -> snd (st o) <> None) ->
  value_of (map st os) d = last_of f os.
Proof.
  intros O st d f os; unfold value_of. induction os as [|o r IH]; intros F N; [reflexivity|].
  cbn [map rev last_of]. rewrite find_app'. specialize (IH (fun x I => F x (or_intror I)) (fun x I => N x (or_intror I))).
  rewrite <- IH. destruct (find _ (rev (map st r))) as [[k [v|]]|] eqn:Q; [reflexivity| |].
  - exfalso. apply find_some in Q. destruct Q as [I T]. rewrite <- in_rev in I. apply in_map_iff in I. destruct I as (o' & E & I).
    apply teqb_eq in T. refine (N o' (or_intror I) _ _); rewrite E; [exact T|reflexivity].
  - rewrite (F o (or_introl eq_refl)). cbn [find]. destruct (st o) as [k v]; cbn [fst snd]. destruct (teqb k d); [destruct v; reflexivity|reflexivity].
Qed.
Lemma flag_given : forall O (st : O -> text * option text) d (f : O -> bool) os,
  (forall o, In o os -> f o = teqb (fst (st o)) d) -> flag_of (map st os) d = given f os.
Proof.
  intros O st d f; unfold flag_of, given. induction os as [|o r IH]; intros F; [reflexivity|].
  cbn [map existsb]. rewrite (F o (or_introl eq_refl)), IH; [reflexivity|intros x I; apply F; right; exact I].
Qed.

Lemma plain_iff : forall t, no_option t <-> is_option t = false.
Proof.
  intros t; unfold no_option, is_option. split.
  - intros N. destruct t as [|z [|c r]]; [reflexivity|destruct z as [|p|p]; try reflexivity; repeat (destruct p; try reflexivity)|].
    destruct (Z.eq_dec z 45) as [->|D]; [destruct N; eauto|]. destruct z as [|p|p]; try reflexivity. repeat (destruct p; try reflexivity). congruence.
  - intros E (c & r & ->). discriminate.
Qed.

Definition tstored (o : tokenize_option) : text * option text :=
  match o with
  | Setting f => (lit "fpath_setting", Some f)
  | Mode m => (lit "mode", Some (mode_text m))
  | Output f => (lit "fpath_out", Some f)
  | Type_ t => (lit "system_dict_type", Some (type_text t))
  | All => (lit "a", None)
  | S_Main.Debug => (lit "d", None)
  | Version _ => (lit "version", None)
  end.
Definition bstored (o : build_option) : text * option text :=
  match o with To f => (lit "out_file", Some f) | About s => (lit "description", Some s) | Matrix f => (lit "matrix_file", Some f) end.
Definition ustored (o : ubuild_option) : text * option text :=
  match o with UTo f => (lit "out_file", Some f) | UAbout s => (lit "description", Some s) | System f => (lit "system_dic", Some f) end.

Lemma option_of_in : forall sp a x, option_of sp a = Some x -> In (a, x) (sp_options sp).
Proof.
  intros sp a x. unfold option_of. destruct (find _ _) as [[n y]|] eqn:Q; [|discriminate]. intros E; inversion E; subst.
  apply find_some in Q. destruct Q as [I T]. cbn [fst] in T. apply teqb_eq in T. subst. exact I.
Qed.

Lemma wr_tk : forall l ns, wr parser_tk l ns <-> exists os, l = flat_map written os /\ Forall option_ok os /\ ns = map tstored os.
Proof.
  intros l ns; split.
  - induction 1 as [|a d l ns O Q W (os & -> & F & ->)|a d ch v l ns O Q V C W (os & -> & F & ->)].
    + exists []. repeat split; constructor.
    + apply option_of_in in Q. cbn [sp_options parser_tk help_options app In] in Q.
      repeat (destruct Q as [Q|Q]; [inversion Q; subst; first
        [exists (All :: os) ; split; [reflexivity|split; [constructor; [exact I|exact F]|reflexivity]]
        |exists (S_Main.Debug :: os); split; [reflexivity|split; [constructor; [exact I|exact F]|reflexivity]]
        |exists (Version false :: os); split; [reflexivity|split; [constructor; [exact I|exact F]|reflexivity]]
        |exists (Version true :: os); split; [reflexivity|split; [constructor; [exact I|exact F]|reflexivity]]]|]); destruct Q.
    + apply plain_iff in V. apply option_of_in in Q. cbn [sp_options parser_tk help_options app In] in Q.
      repeat (destruct Q as [Q|Q]; [try discriminate Q; inversion Q; subst; clear Q|]); [| | | |destruct Q].
      * exists (Setting v :: os). split; [reflexivity|split; [constructor; [exact V|exact F]|reflexivity]].
      * cbn [existsb] in C. repeat rewrite orb_true_iff in C.
        destruct C as [C|[C|[C|C]]]; [| | |discriminate]; apply teqb_eq in C; subst v.
        -- exists (Mode A :: os). split; [reflexivity|split; [constructor; [exact I|exact F]|reflexivity]].
        -- exists (Mode B :: os). split; [reflexivity|split; [constructor; [exact I|exact F]|reflexivity]].
        -- exists (Mode C :: os). split; [reflexivity|split; [constructor; [exact I|exact F]|reflexivity]].
      * exists (Output v :: os). split; [reflexivity|split; [constructor; [exact V|exact F]|reflexivity]].
      * cbn [existsb] in C. repeat rewrite orb_true_iff in C.
        destruct C as [C|[C|[C|C]]]; [| | |discriminate]; apply teqb_eq in C; subst v.
        -- exists (Type_ Small :: os). split; [reflexivity|split; [constructor; [exact I|exact F]|reflexivity]].
        -- exists (Type_ Core :: os). split; [reflexivity|split; [constructor; [exact I|exact F]|reflexivity]].
        -- exists (Type_ Full :: os). split; [reflexivity|split; [constructor; [exact I|exact F]|reflexivity]].
  - intros (os & -> & F & ->). induction F as [|o os K F IH]; [constructor|]. cbn [flat_map map].
    destruct o as [f|m|f|t| | |[]]; cbn [written tstored app].
    + eapply wr_value; [reflexivity|reflexivity|apply plain_iff; exact K|reflexivity|exact IH].
    + destruct m; (eapply wr_value; [reflexivity|reflexivity|reflexivity|reflexivity|exact IH]).
    + eapply wr_value; [reflexivity|reflexivity|apply plain_iff; exact K|reflexivity|exact IH].
    + destruct t; (eapply wr_value; [reflexivity|reflexivity|reflexivity|reflexivity|exact IH]).
    + eapply wr_flag; [reflexivity|reflexivity|exact IH].
    + eapply wr_flag; [reflexivity|reflexivity|exact IH].
    + eapply wr_flag; [reflexivity|reflexivity|exact IH].
    + eapply wr_flag; [reflexivity|reflexivity|exact IH].
Qed.
Lemma wr_bd : forall l ns, wr parser_bd l ns <-> exists os, l = flat_map bwritten os /\ Forall boption_ok os /\ ns = map bstored os.
Proof.
  intros l ns; split.
  - induction 1 as [|a d l ns O Q W (os & -> & F & ->)|a d ch v l ns O Q V C W (os & -> & F & ->)].
    + exists []. repeat split; constructor.
    + apply option_of_in in Q. cbn [sp_options parser_bd help_options app In] in Q.
      repeat (destruct Q as [Q|Q]; [discriminate Q|]); destruct Q.
    + apply plain_iff in V. apply option_of_in in Q. cbn [sp_options parser_bd help_options app In] in Q.
      repeat (destruct Q as [Q|Q]; [try discriminate Q; inversion Q; subst; clear Q|]); [| | |destruct Q].
      * exists (To v :: os). split; [reflexivity|split; [constructor; [exact V|exact F]|reflexivity]].
      * exists (About v :: os). split; [reflexivity|split; [constructor; [exact V|exact F]|reflexivity]].
      * exists (Matrix v :: os). split; [reflexivity|split; [constructor; [exact V|exact F]|reflexivity]].
  - intros (os & -> & F & ->). induction F as [|o os K F IH]; [constructor|]. cbn [flat_map map].
    destruct o as [f|f|f]; cbn [bwritten bstored app]; (eapply wr_value; [reflexivity|reflexivity|apply plain_iff; exact K|reflexivity|exact IH]).
Qed.
Lemma wr_ubd : forall l ns, wr parser_ubd l ns <-> exists os, l = flat_map uwritten os /\ Forall uoption_ok os /\ ns = map ustored os.
Proof.
  intros l ns; split.
  - induction 1 as [|a d l ns O Q W (os & -> & F & ->)|a d ch v l ns O Q V C W (os & -> & F & ->)].
    + exists []. repeat split; constructor.
    + apply option_of_in in Q. cbn [sp_options parser_ubd help_options app In] in Q.
      repeat (destruct Q as [Q|Q]; [discriminate Q|]); destruct Q.
    + apply plain_iff in V. apply option_of_in in Q. cbn [sp_options parser_ubd help_options app In] in Q.
      repeat (destruct Q as [Q|Q]; [try discriminate Q; inversion Q; subst; clear Q|]); [| | |destruct Q].
      * exists (UAbout v :: os). split; [reflexivity|split; [constructor; [exact V|exact F]|reflexivity]].
      * exists (UTo v :: os). split; [reflexivity|split; [constructor; [exact V|exact F]|reflexivity]].
      * exists (System v :: os). split; [reflexivity|split; [constructor; [exact V|exact F]|reflexivity]].
  - intros (os & -> & F & ->). induction F as [|o os K F IH]; [constructor|]. cbn [flat_map map].
    destruct o as [f|f|f]; cbn [uwritten ustored app]; (eapply wr_value; [reflexivity|reflexivity|apply plain_iff; exact K|reflexivity|exact IH]).
Qed.

(** ** Commands *)
Lemma command_of_name : forall a c, command_of a = Some c <-> a = command_name c.
Proof.
  intros a c; split.
  - unfold command_of. intros Q. apply find_some in Q. destruct Q as [_ T]. apply teqb_eq in T. congruence.
  - intros ->. destruct c; reflexivity.
Qed.
Lemma named_iff : forall a, (exists c, command_of a = Some c) <-> In a names.
Proof.
  intros a; split.
  - intros (c & Q). apply command_of_name in Q. subst. destruct c; [left|right; left|right; right; left]; reflexivity.
  - intros [<-|[<-|[<-|[]]]]; [exists Tokenize|exists Build|exists UserBuild]; reflexivity.
Qed.
Lemma written_modelled : forall os files, Forall option_ok os -> Forall no_option files ->
  modelled (flat_map written os) = true /\ modelled files = true.
Proof.
  intros os files F G; split.
  - induction F as [|o os K F IH]; [reflexivity|]. cbn [flat_map]. unfold modelled in *. rewrite forallb_app, IH, andb_true_r.
    destruct o as [f|[]|f|[]| | |[]]; try reflexivity; cbn [option_ok] in K; apply plain_iff in K; cbn [written forallb]; rewrite K; reflexivity.
  - unfold modelled. apply forallb_forall. intros x I. rewrite Forall_forall in G. apply G, plain_iff in I. rewrite I. reflexivity.
Qed.
Lemma bwritten_modelled : forall os, Forall boption_ok os -> modelled (flat_map bwritten os) = true.
Proof.
  intros os F; induction F as [|o os K F IH]; [reflexivity|]. cbn [flat_map]. unfold modelled in *. rewrite forallb_app, IH, andb_true_r.
  destruct o as [f|f|f]; cbn [boption_ok] in K; apply plain_iff in K; cbn [bwritten forallb]; rewrite K; reflexivity.
Qed.
Lemma uwritten_modelled : forall os, Forall uoption_ok os -> modelled (flat_map uwritten os) = true.
Proof.
  intros os F; induction F as [|o os K F IH]; [reflexivity|]. cbn [flat_map]. unfold modelled in *. rewrite forallb_app, IH, andb_true_r.
  destruct o as [f|f|f]; cbn [uoption_ok] in K; apply plain_iff in K; cbn [uwritten forallb]; rewrite K; reflexivity.
Qed.
Lemma help_option : forall a, is_help a = true -> is_option a = true.
Proof. intros a H. unfold is_help in H. apply orb_true_iff in H. destruct H as [H|H]; apply teqb_eq in H; subst; reflexivity. Qed.
Lemma set_default_named : forall c r, set_default_subparser (command_name c :: r) = command_name c :: r.
Proof.
  intros c r. unfold set_default_subparser. destruct (existsb is_help _); [reflexivity|]. cbn [existsb].
  rewrite (proj2 (command_of_name (command_name c) c) eq_refl). reflexivity.
Qed.

(** A command runs exactly when its parser takes the arguments after its name *)
Lemma runs_iff : forall args inv,
  invocation_of args = inv -> inv <> ShowHelp -> inv <> Usage -> inv <> NotModelled ->
  exists c r ns files, set_default_subparser args = command_name c :: r /\ parse_sub (parser_of c) r [] None false false = Parsed ns files /\ inv = run_with c ns files.
Proof.
  intros args inv H N1 N2 N3. unfold invocation_of in H. destruct (modelled args); [|congruence].
  assert (G : forall l, parse_root l true = ShowHelp \/ parse_root l true = Usage).
  { induction l as [|a l IH]; [right; reflexivity|]. cbn [parse_root]. destruct (is_option a); [destruct (is_help a); [left; reflexivity|exact IH]|].
    destruct (command_of a) as [c|]; [|right; reflexivity]. destruct (parse_sub _ l [] None false false); auto. }
  destruct (set_default_subparser args) as [|a r]; [cbn in H; congruence|]. cbn [parse_root] in H.
  destruct (is_option a) eqn:O.
  - destruct (is_help a); [congruence|]. destruct (G r); congruence.
  - destruct (command_of a) as [c|] eqn:Q; [|congruence]. apply command_of_name in Q. subst a.
    destruct (parse_sub (parser_of c) r [] None false false) as [| |ns files] eqn:P; try congruence.
    exists c, r, ns, files. repeat split; auto.
Qed.
Lemma runs_named : forall c r ns files, modelled r = true ->
  parse_sub (parser_of c) r [] None false false = Parsed ns files -> invocation_of (command_name c :: r) = run_with c ns files.
Proof.
  intros c r ns files M P. unfold invocation_of.
  assert (M' : modelled (command_name c :: r) = true) by (unfold modelled in *; cbn [forallb]; rewrite M; destruct c; reflexivity).
  rewrite M', set_default_named. cbn [parse_root].
  assert (O : is_option (command_name c) = false) by (destruct c; reflexivity).
  rewrite O, (proj2 (command_of_name (command_name c) c) eq_refl), P. reflexivity.
Qed.
