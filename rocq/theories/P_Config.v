(** A configured tokenizer: states, preparation and analysis. *)
From Coq Require Import List ZArith Lia Bool Arith.
From Verif Require Import Base Utf8 M_Builder M_InputText M_Lattice M_Oov M_Tokenizer S_Text S_Lattice
  P_Builder P_InputText P_Accessors P_Oov P_Lattice P_Tokenizer P_Path.
Import ListNotations.
Open Scope nat_scope.

(** What every theorem asks of the configuration: every character has a category;
    the input-text plugins change the text only by replacing non-empty parts of it;
    dictionary lookup finds non-empty words inside the text. *)
Record sane (cfg : config) : Prop := {
  sane_category : forall c, cf_category cfg c <> [];
  sane_inputs : forall p, In p (cf_inputs cfg) -> forall t bd bd',
    rewritten t bd -> p bd = Ok bd' -> rewritten t bd';
  sane_lookup : forall bs i wid e, In (wid, e) (fst (cf_lookup cfg bs i)) -> i < e <= length bs;
}.

(** The connection cost of two ids *)
Definition cf_conn (cfg : config) : Z -> Z -> Z := cost_of (cf_view cfg).

(** The word costs, like the connection costs (signed 16-bit in the matrix). *)
Definition bits16 (z : Z) : Prop := (-32768 <= z <= 32767)%Z.
Definition provider_costs (P : Z -> Prop) (p : provider) : Prop :=
  match p with
  | Simple cfg => P (so_cost cfg)
  | MeCab cfg => forall c oovs o, mc_oovs cfg c = Some oovs -> In o oovs -> P (oe_cost o)
  end.
Record costs_in (P Q : Z -> Prop) (cfg : config) : Prop := {
  ci_conn : forall a b, P (cf_conn cfg a b);
  ci_params : forall wid l r c, cf_params cfg wid = Ok (l, r, c) -> Q c;
  ci_providers : forall p, In p (cf_providers cfg) -> provider_costs Q p;
}.

(** The connection ids of the words that the tokenizer may meet: left ids in [L], right
    ids in [R], and the matrix has a cell for each such pair (BOS and EOS have the id 0). *)
Definition provider_ids (L R : Z -> Prop) (p : provider) : Prop :=
  match p with
  | Simple cfg => L (so_left cfg) /\ R (so_right cfg)
  | MeCab cfg => forall c oovs o, mc_oovs cfg c = Some oovs -> In o oovs -> L (oe_left o) /\ R (oe_right o)
  end.
Record ids_in (L R : Z -> Prop) (cfg : config) : Prop := {
  ii_cells : forall a b, L a -> R b -> cf_view cfg a b <> None;
  ii_ends : L 0%Z /\ R 0%Z;
  ii_params : forall bs i wid e l r c, In (wid, e) (fst (cf_lookup cfg bs i)) -> cf_params cfg wid = Ok (l, r, c) -> L l /\ R r;
  ii_providers : forall p, In p (cf_providers cfg) -> provider_ids L R p;
}.
Definition ids_inside (cfg : config) : Prop := exists L R, ids_in L R cfg.

(** The states of a tokenizer none of whose calls raised while the lattice was in
    use: a call may have succeeded, or have failed in the preparation of the text,
    or only in the splitting of the path into A or B units. *)
Inductive usable (cfg : config) : lattice -> Prop :=
| us_new : usable cfg new_lattice
| us_success lat t m lat' r : usable cfg lat -> run cfg lat t m = (lat', Ok r) -> usable cfg lat'
| us_prepare_error lat t m e : usable cfg lat -> run_prepare cfg t = Err e -> usable cfg (fst (run cfg lat t m))
| us_split_error lat t m lat' r : usable cfg lat -> run cfg lat t ModeC = (lat', Ok r) ->
    usable cfg (fst (run cfg lat t m)).
(** The states of any tokenizer. *)
Inductive reachable_state (cfg : config) : lattice -> Prop :=
| rs_new : reachable_state cfg new_lattice
| rs_call lat t m : reachable_state cfg lat -> reachable_state cfg (fst (run cfg lat t m)).

Lemma new_clean : clean bos_parameter new_lattice.
Proof. split; auto. exists 0. split; auto. Qed.

Lemma foldM_inv {A S} (P : S -> Prop) (f : S -> A -> res S) l : forall s s',
  (forall x s s', In x l -> P s -> f s x = Ok s' -> P s') -> P s -> foldM f s l = Ok s' -> P s'.
Proof.
  induction l as [|x l IH]; intros s s' H Hs E; cbn [foldM] in E.
  - now injection E as <-.
  - apply bind_ok in E as (s1 & E1 & E). apply (IH s1); auto.
    + intros y a b Hy. apply H. now right.
    + apply (H x s); auto. now left.
Qed.

Lemma run_prepare_built cfg t it : sane cfg -> t <> [] -> run_prepare cfg t = Ok it ->
  exists bd, builder_wf t bd /\ build (cf_category cfg) bd = Ok it /\
    built (b_mod bd) t (b_m2o bd) (map (cf_category cfg) (b_mod bd)) it.
Proof.
  intros S Ht E. unfold run_prepare, prepare in E. apply bind_ok in E as (bd & Ebd & E).
  assert (Hwf : builder_wf t bd).
  { apply rewritten_wf. apply (foldM_inv (rewritten t) (fun bd p => p bd) (cf_inputs cfg) (builder_init t) bd); auto.
    - intros p s s' Hp Hs Eq. apply (sane_inputs cfg S p Hp t s s'); auto.
    - constructor. }
  exists bd. split; auto. split; auto.
  assert (Hs : scalar_text (b_mod bd)).
  { unfold build in E. apply bind_ok in E as (bs & Ebs & _). eapply encode_scalar; eauto. }
  destruct (build_spec (cf_category cfg) t bd Hwf Hs) as (it' & E' & B).
  - intros c _. apply (sane_category cfg S).
  - rewrite E in E'. injection E' as <-. exact B.
Qed.

Section analysis.
Context {cfg : config} {t orig : text} {m2o : list nat} {cats : list (list cat)} {it : input_text}.
Context (S : sane cfg) (B : built t orig m2o cats it).

Notation n := (length (it_bytes it)).
(** A word that the tokenizer considers at a position where a word may begin. *)
Definition considered (w : wnode) : Prop := cand_word (can_bow it) (run_candidates cfg it) n w.

Lemma considered_range w : considered w -> w_begin w < w_end w <= n.
Proof.
  intros (H1 & H2 & H3). eapply candidates_range; eauto.
  intros bs i wid e. apply (sane_lookup cfg S).
Qed.

Lemma cands_begin' i w : In w (fst (run_candidates cfg it i)) -> w_begin w = i.
Proof. apply candidates_begin. Qed.

Lemma considered_cost P Q w : costs_in P Q cfg -> considered w -> Q (w_cost w).
Proof.
  intros C (H1 & H2 & H3). apply (bow_start B) in H2 as (k & Hk & Ek).
  apply candidates_sound in H3 as [(wid & e & l & r & c & _ & Hp & _ & _ & ->)|(p & h & ns & Hp & Hg & Hw)].
  - apply (ci_params _ _ _ C _ _ _ _ Hp).
  - rewrite Ek in Hg. destruct (get_oov_span B p h ns k w Hk Hg Hw) as (j & l & r & c & ps & _ & -> & Hm).
    cbn. pose proof (ci_providers _ _ _ C p Hp) as HC. destruct p as [sc|mc]; cbn in HC.
    + destruct Hm as (_ & _ & -> & _). exact HC.
    + destruct Hm as (ct & oovs & o & Ho & Hin & _ & _ & -> & _). eapply HC; eauto.
Qed.

Lemma considered_ids L R w : ids_in L R cfg -> considered w -> L (w_left w) /\ R (w_right w).
Proof.
  intros C (H1 & H2 & H3). apply (bow_start B) in H2 as (k & Hk & Ek).
  apply candidates_sound in H3 as [(wid & e & l & r & c & Hw & Hp & _ & _ & ->)|(p & h & ns & Hp & Hg & Hw)].
  - exact (ii_params _ _ _ C _ _ _ _ _ _ _ Hw Hp).
  - rewrite Ek in Hg. destruct (get_oov_span B p h ns k w Hk Hg Hw) as (j & l & r & c & ps & _ & -> & Hm).
    cbn. pose proof (ii_providers _ _ _ C p Hp) as HC. destruct p as [sc|mc]; cbn in HC.
    + destruct Hm as (-> & -> & _). exact HC.
    + destruct Hm as (ct & oovs & o & Ho & Hin & -> & -> & _). eapply HC; eauto.
Qed.
(** every cell that is looked up is in the matrix *)
Lemma considered_inside : ids_inside cfg ->
  (forall w r, considered w -> after bos_parameter (can_bow it) (run_candidates cfg it) n r -> cf_view cfg (w_left w) r <> None) /\
  (forall r, after bos_parameter (can_bow it) (run_candidates cfg it) n r -> cf_view cfg (w_left (eos_word eos_parameter n)) r <> None).
Proof.
  intros (L & R & C).
  assert (A : forall r, after bos_parameter (can_bow it) (run_candidates cfg it) n r -> R r).
  { intros r [->|(x & Hx & ->)]; [apply (ii_ends _ _ _ C)|apply (considered_ids _ _ _ C Hx)]. }
  split.
  - intros w r Hw Hr. apply (ii_cells _ _ _ C); [apply (considered_ids _ _ _ C Hw)|auto].
  - intros r Hr. apply (ii_cells _ _ _ C); [apply (ii_ends _ _ _ C)|auto].
Qed.

Lemma analyse_shape lat lat' r : clean bos_parameter lat -> run_analyse cfg lat it = (lat', r) ->
  shape bos_parameter n lat' /\ l_size lat' = n.
Proof.
  intros Hc E. unfold run_analyse, analyse in E.
  destruct (build_lattice _ _ _ _ _ _) as [lat1 x] eqn:E1.
  assert (lat1 = lat') by (destruct x; injection E as <- <-; reflexivity). subst lat1.
  eapply build_lattice_shape in E1; eauto.
  intros i w Hb Hw. pose proof (candidates_range (cf_lookup cfg) (cf_params cfg) (cf_providers cfg) B (sane_lookup cfg S) i w Hb Hw). lia.
Qed.

Lemma analyse_path lat lat' p : clean bos_parameter lat -> run_analyse cfg lat it = (lat', Ok p) ->
  tiles 0 (map to_step p) n /\ Forall considered p /\
  allowed (cf_conn cfg) INHIBITED 0 (map to_step p) 0.
Proof.
  intros Hc E. unfold run_analyse, analyse in E.
  destruct (build_lattice _ _ _ _ _ _) as [lat1 [x|]] eqn:E1; [discriminate|].
  injection E as <- E. eapply best_path_chain in E1; eauto.
  - exact (proj1 E1).
  - apply considered_range.
  - apply cands_begin'.
Qed.

Lemma analyse_cells lat lat' p : clean bos_parameter lat -> run_analyse cfg lat it = (lat', Ok p) ->
  has_cells (cf_view cfg) 0 (map to_step p) 0.
Proof.
  intros Hc E. unfold run_analyse, analyse in E.
  destruct (build_lattice _ _ _ _ _ _) as [lat1 [x|]] eqn:E1; [discriminate|].
  injection E as <- E. eapply best_path_chain in E1; eauto.
  - exact (proj2 E1).
  - apply considered_range.
  - apply cands_begin'.
Qed.

Lemma analyse_lists lat lat' r : clean bos_parameter lat -> run_analyse cfg lat it = (lat', r) ->
  lists_end n lat' /\
  forall e ls w, nth_error (l_lists lat') e = Some ls -> In w (map ln_word ls) -> 0 < e -> w_end w = e /\ considered w.
Proof.
  intros Hc E. destruct (analyse_shape lat lat' r Hc E) as ((L & _) & _). unfold run_analyse, analyse in E.
  destruct (build_lattice _ _ _ _ _ _) as [lat1 x] eqn:E1.
  assert (lat1 = lat') by (destruct x; injection E as <- <-; reflexivity). subst lat1.
  assert (C : chain_inv (cf_view cfg) bos_parameter (can_bow it) (run_candidates cfg it) n (l_lists lat'))
    by (eapply build_lattice_chain; eauto; [apply considered_range|apply cands_begin']).
  split; [eapply chain_lists_end; eauto|]. intros e ls w Ee Hin He.
  destruct (chain_words _ _ _ _ _ _ _ _ _ C Ee Hin) as [(-> & _)|(_ & H)]; [lia|exact H].
Qed.
End analysis.

(** The lattice is cleared after the analysis and the rewriting, before the split. *)
Lemma run_clean cfg lat t m : sane cfg -> clean bos_parameter lat ->
  (exists lat' r, run cfg lat t ModeC = (lat', Ok r)) \/ (exists e, run_prepare cfg t = Err e) ->
  clean bos_parameter (fst (run cfg lat t m)).
Proof.
  intros S Hc H. unfold run, tokenize in *. destruct t as [|c t0]; [exact Hc|].
  set (t := c :: t0) in *. change (prepare _ _ t) with (run_prepare cfg t) in *.
  destruct (run_prepare cfg t) as [it|] eqn:Ep; [|exact Hc].
  destruct H as [(lat' & r & E)|(e & E)]; [|discriminate].
  destruct (run_prepare_built cfg t it S) as (bd & Hwf & Eb & B); [discriminate|exact Ep|].
  change (analyse _ _ _ _ _ lat it) with (run_analyse cfg lat it) in *.
  destruct (run_analyse cfg lat it) as [lat1 [p|x]] eqn:Ea; [|discriminate].
  destruct (foldM _ p (cf_rewrites cfg)) as [p1|x]; [|discriminate].
  destruct (analyse_shape S B _ _ _ Hc Ea) as (Hsh & Hz).
  destruct (clear_clean bos_parameter _ lat1 Hsh Hz) as (lat2 & El & Hcl). rewrite El in *.
  destruct (split_path _ m p1); exact Hcl.
Qed.

Lemma run_ok_modeC cfg lat t m lat' r : run cfg lat t m = (lat', Ok r) ->
  exists r', run cfg lat t ModeC = (lat', Ok r').
Proof.
  unfold run, tokenize. destruct t as [|c t0]; [intros [= <- <-]; eauto|].
  destruct (prepare _ _ _) as [it|]; [|discriminate].
  destruct (analyse _ _ _ _ _ lat it) as [lat1 [p|x]]; [|discriminate].
  destruct (foldM _ p (cf_rewrites cfg)) as [p1|x]; [|discriminate].
  destruct (lat_clear lat1) as [lat2|]; [|discriminate].
  destruct (split_path _ m p1); [|discriminate]. intros [= <- _]. cbn. eauto.
Qed.

Lemma usable_clean cfg lat : sane cfg -> usable cfg lat -> clean bos_parameter lat.
Proof.
  intros S. induction 1 as [|lat t m lat' r _ IH E|lat t m e _ IH E|lat t m lat' r _ IH E].
  - apply new_clean.
  - replace lat' with (fst (run cfg lat t m)) by now rewrite E. apply run_clean; auto.
    left. destruct (run_ok_modeC _ _ _ _ _ _ E) as (r' & E'). eauto.
  - apply run_clean; eauto.
  - apply run_clean; eauto.
Qed.
