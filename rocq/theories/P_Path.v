(** The best path is a path: tiling, candidates and allowed connections for texts
    of any length, whatever the costs (no assumption on overflow). *)
From Coq Require Import List ZArith Lia Bool Arith.
From Verif Require Import Base M_Builder M_InputText M_Lattice M_Oov M_Tokenizer S_Lattice P_Lattice P_Tokenizer.
Import ListNotations.
Open Scope nat_scope.

(** [lists_end n lat]: the lists up to [n] exist, and the nodes in list [e] end at [e]. *)
Definition lists_end (n : nat) (lat : lattice) : Prop :=
  n < length (l_lists lat) /\
  forall e ls w, nth_error (l_lists lat) e = Some ls -> In w (map ln_word ls) -> w_end w = e.

Section chain.
Variable view : Z -> Z -> option Z.
Notation conn := (cost_of view).
Variable bosp eosp : Z * Z * Z.
Variable bow : nat -> res bool.
Variable cands : nat -> gen wnode.
Variable n : nat.
Hypothesis cands_ok : forall w, cand_word bow cands n w -> w_begin w < w_end w <= n.
Hypothesis cands_begin : forall i w, In w (fst (cands i)) -> w_begin w = i.

Notation rpath := (rpath bow cands n).
Notation cand_word := (cand_word bow cands n).
Notation rallowed := (rallowed view bosp).

(** Every cell of the path is in the matrix. *)
Fixpoint rcells (r : list wnode) : Prop :=
  match r with
  | [] => True
  | w :: r' => view (w_left w) (right_of bosp r') <> None /\ rcells r'
  end.
Lemma rcells_has r final : view final (right_of bosp r) <> None /\ rcells r ->
  has_cells view (w_right (bos_word bosp)) (map to_step (rev r)) final.
Proof.
  assert (SN : forall p s right f, has_cells view right p (s_left s) -> view f (s_right s) <> None -> has_cells view right (p ++ [s]) f).
  { induction p as [|x p IH]; intros s right f; cbn [app has_cells]; [auto|]. intros (H1 & H2) H. split; auto. }
  revert final. induction r as [|w r IH]; intros final; [cbn; tauto|]. cbn [rcells right_of]. intros (H1 & H2).
  cbn [rev]. rewrite map_app. cbn [map]. apply SN; [|exact H1]. cbn [to_step s_left]. apply IH. exact H2.
Qed.

(** The predecessor [p] of word [w] heads a path to the beginning of [w]. *)
Definition linked (w : wnode) (p : option lnode) : Prop :=
  match p with
  | Some l => exists r, back l = Ok r /\ rpath r (w_begin w) /\ rallowed (w :: r) /\ rcells (w :: r)
  | None => True
  end.

Definition chain_inv (lists : list (list lnode)) : Prop :=
  nth_error lists 0 = Some [bos_node bosp] /\
  forall e l, 0 < e -> node_at lists e l ->
    ln_bos l = false /\ w_end (ln_word l) = e /\ cand_word (ln_word l) /\ linked (ln_word l) (ln_prev l).

Lemma connect_chain lists w nd : chain_inv lists -> connect_node view lists w = Ok nd ->
  ln_word nd = w /\ ln_bos nd = false /\ linked w (ln_prev nd).
Proof.
  intros (I1 & I2) E. destruct (connect_node_cases _ _ _ _ E) as (ls & Els & EW & EB & [(HI & HN)|(_ & HN)]);
    (split; [exact EW|]; split; [exact EB|]); [|now rewrite HN].
  pose proof (connect_fold conn w ls INT_MAX None) as HF.
  destruct (fold_left _ _ _) as [tot prev]. rewrite HN. cbn [ln_prev].
  destruct HF as (_ & _ & [(_ & -> & _)|(pre & l & post & -> & -> & (Hc & Hi) & _)]); [exact I|].
  assert (HV : view (w_left w) (w_right (ln_word l)) <> None) by (apply (HI l); [apply in_or_app; right; now left|exact Hc]).
  cbn. destruct (Nat.eq_dec (w_begin w) 0) as [H0|Hn0].
  - rewrite H0 in Els. rewrite I1 in Els. injection Els as Els.
    assert (l = bos_node bosp).
    { destruct pre as [|a pre]; [now injection Els|]. injection Els as _ Els. destruct pre; discriminate. }
    subst l. exists []. rewrite H0. split; [reflexivity|]. split; [constructor|]. split; [split; [exact Hi|exact I]|]. split; [exact HV|exact I].
  - destruct (I2 (w_begin w) l) as (A1 & A2 & A3 & A4); [lia|eexists; split; [exact Els|]; apply in_or_app; right; now left|].
    unfold connected in Hc. rewrite A1 in Hc. destruct l as [lw lb lt lp]. cbn in *. subst lb.
    destruct lp as [l'|]; [|discriminate]. destruct A4 as (r & Hb & Hr & Hal & Hcl). rewrite Hb. cbn.
    exists (lw :: r). split; auto. split; [rewrite <- A2; now constructor|]. split; split; auto.
Qed.

Lemma insert_chain lat w lat' : chain_inv (l_lists lat) -> cand_word w -> lat_insert view lat w = Ok lat' ->
  chain_inv (l_lists lat') /\ l_eos lat' = l_eos lat.
Proof.
  intros I Hc E. pose proof (cands_ok w Hc) as Hw. unfold lat_insert in E.
  apply bind_ok in E as (ls & Els & E). apply bind_ok in E as (nd & End & E). apply bind_ok in E as (lists & Es & [= <-]).
  pose proof (get_ok_lt _ _ _ Els) as Hlt. apply get_ok in Els.
  destruct (set_nth_total (l_lists lat) (w_end w) (ls ++ [nd]) Hlt) as (l' & E' & Hl & Hn).
  rewrite Es in E'. injection E' as <-. cbn [l_lists l_eos]. split; auto.
  destruct (connect_chain _ _ _ I End) as (N1 & N2 & N3). destruct I as (I1 & I2).
  split.
  - rewrite Hn. destruct (Nat.eqb_spec 0 (w_end w)); [lia|auto].
  - intros e l He (ls' & El & Hin). rewrite Hn in El. destruct (Nat.eqb_spec e (w_end w)) as [->|Hne].
    + injection El as <-. apply in_app_or in Hin as [Hin|[<-|[]]].
      * apply I2; auto. exists ls; auto.
      * rewrite N1. auto.
    + apply I2; auto. exists ls'; auto.
Qed.

Lemma insert_all_chain ws : forall lat lat' x, chain_inv (l_lists lat) -> (forall w, In w ws -> cand_word w) ->
  insert_all view lat ws = (lat', x) -> chain_inv (l_lists lat') /\ l_eos lat' = l_eos lat.
Proof.
  induction ws as [|w ws IH]; intros lat lat' x I Hws E; cbn [insert_all] in E.
  - injection E as <- <-. auto.
  - destruct (lat_insert view lat w) as [lat1|] eqn:E1.
    + apply insert_chain in E1 as (S1 & Z1); auto; [|apply Hws; now left].
      apply IH in E; auto; [|intros; apply Hws; now right]. destruct E. split; auto. congruence.
    + injection E as <- <-. auto.
Qed.

Lemma build_from_chain k : forall lat i lat' x, i + k <= n -> chain_inv (l_lists lat) ->
  build_from view bow cands lat i k = (lat', x) -> chain_inv (l_lists lat') /\ l_eos lat' = l_eos lat.
Proof.
  induction k as [|k IH]; intros lat i lat' x Hik I E; cbn [build_from] in E.
  - injection E as <- <-. auto.
  - assert (Hstep : forall lat1 x1, build_at view bow cands lat i = (lat1, x1) ->
      chain_inv (l_lists lat1) /\ l_eos lat1 = l_eos lat).
    { intros lat1 x1 E1. unfold build_at in E1.
      destruct (bow i) as [[|]|] eqn:Eb; [|injection E1 as <- <-; auto|injection E1 as <- <-; auto].
      destruct (has_previous_node lat i) as [[|]|]; [|injection E1 as <- <-; auto|injection E1 as <- <-; auto].
      destruct (cands i) as [ws e] eqn:Ec.
      destruct (insert_all view lat ws) as [lat2 x2] eqn:E2.
      apply insert_all_chain in E2; auto.
      2:{ intros w Hw. assert (Hb : w_begin w = i) by (apply cands_begin; now rewrite Ec).
          split; [lia|]. rewrite Hb. split; auto. now rewrite Ec. }
      destruct x2; injection E1 as <- <-; auto. }
    destruct (build_at view bow cands lat i) as [lat1 [x1|]]; destruct (Hstep _ _ eq_refl) as (J & O).
    + injection E as <- <-. auto.
    + apply IH in E; auto; [|lia]. destruct E. split; auto. congruence.
Qed.

Lemma resize_chain lat : clean bosp lat -> chain_inv (l_lists (lat_resize eosp lat n)).
Proof.
  intros (Hs & k & Hl & Hk). split.
  - unfold lat_resize. destruct (_ <? _); cbn [lat_expand l_lists]; rewrite Hl; reflexivity.
  - intros e l He (ls & El & Hin). exfalso. revert El.
    unfold lat_resize. destruct (_ <? _); cbn [lat_expand l_lists]; rewrite Hl; destruct e; try lia; cbn;
      [rewrite <- repeat_app|]; intros El; apply nth_error_repeat in El; subst; contradiction.
Qed.

Lemma build_lattice_chain lat lat' x : clean bosp lat ->
  build_lattice view eosp bow cands lat n = (lat', x) -> chain_inv (l_lists lat').
Proof.
  intros Hc E. pose proof (resize_chain lat Hc) as I0. unfold build_lattice in E.
  destruct (build_from view bow cands _ 0 n) as [lat1 [y|]] eqn:E1; apply build_from_chain in E1; auto; destruct E1 as (J & _).
  - now injection E as <- _.
  - unfold connect_eos in E. destruct (l_eos lat1); [|now injection E as <- _].
    destruct (connect_node view (l_lists lat1) (ln_word l)); cbn [bind] in E; now injection E as <- _.
Qed.

(** every word of the lattice ends where it is listed and is a candidate *)
Lemma chain_words lists e ls w : chain_inv lists -> nth_error lists e = Some ls -> In w (map ln_word ls) ->
  (e = 0 /\ w = bos_word bosp) \/ (0 < e /\ w_end w = e /\ cand_word w).
Proof.
  intros (I1 & I2) E Hin. destruct e as [|e].
  - rewrite I1 in E. injection E as <-. destruct Hin as [<-|[]]. now left.
  - apply in_map_iff in Hin as (l & <- & Hin). right. destruct (I2 (S e) l) as (_ & A & B & _); [lia|eexists; eauto|].
    split; [lia|]. auto.
Qed.
Lemma chain_lists_end lat : chain_inv (l_lists lat) -> n < length (l_lists lat) -> lists_end n lat.
Proof.
  intros C L. split; [exact L|]. intros e ls w E Hin. destruct (chain_words _ _ _ _ C E Hin) as [(-> & ->)|(_ & H & _)]; [|exact H].
  unfold bos_word. destruct bosp as [[? ?] ?]. reflexivity.
Qed.

Lemma best_path_chain lat lat' p : clean bosp lat ->
  build_lattice view eosp bow cands lat n = (lat', None) -> get_best_path lat' = Ok p ->
  (tiles 0 (map to_step p) n /\ Forall cand_word p /\
   allowed conn INHIBITED (w_right (bos_word bosp)) (map to_step p) (w_left (eos_word eosp n))) /\
  has_cells view (w_right (bos_word bosp)) (map to_step p) (w_left (eos_word eosp n)).
Proof.
  intros Hc E Hp. pose proof (resize_chain lat Hc) as I0. unfold build_lattice in E.
  destruct (build_from view bow cands _ 0 n) as [lat1 [x|]] eqn:E1; [discriminate|].
  apply build_from_chain in E1; auto. destruct E1 as (J & O). cbn [lat_resize l_eos] in O.
  unfold connect_eos in E. rewrite O in E. cbn [ln_word] in E.
  destruct (connect_node view (l_lists lat1) (eos_word eosp n)) as [nd|] eqn:En; [|discriminate].
  cbn [bind] in E. injection E as <-.
  destruct (connect_chain _ _ _ J En) as (N1 & N2 & N3).
  unfold get_best_path in Hp. cbn [l_eos] in Hp. destruct (ln_prev nd) as [l|]; [|discriminate].
  apply bind_ok in Hp as (r & Hr & [= <-]). destruct N3 as (r' & Hr' & Hpath & Hal & Hcl).
  rewrite Hr in Hr'. injection Hr' as <-.
  assert (Hb : w_begin (eos_word eosp n) = n) by (unfold eos_word; destruct eosp as [[? ?] ?]; reflexivity).
  rewrite Hb in Hpath. apply rpath_tiles in Hpath as (Ht & Hf); auto.
  split; [split; auto; split; [now apply Forall_rev|now apply rallowed_allowed]|]. now apply rcells_has.
Qed.
End chain.

(** ** The optimum, in the words of the specification *)
Section optimum.
Variable view : Z -> Z -> option Z.
Notation conn := (cost_of view).
Variable bosp eosp : Z * Z * Z.
Variable bow : nat -> res bool.
Variable cands : nat -> gen wnode.
Variable n : nat.
Variable M : Z.
Hypothesis cands_ok : forall w, cand_word bow cands n w -> w_begin w < w_end w <= n.
Hypothesis cands_begin : forall i w, In w (fst (cands i)) -> w_begin w = i.
Hypothesis M_word : forall w a b, cand_word bow cands n w -> (Z.abs (w_cost w + conn a b) <= M)%Z.
Hypothesis M_conn : forall a b, (Z.abs (conn a b) <= M)%Z.
Hypothesis M_eos : forall a b, (Z.abs (w_cost (eos_word eosp n) + conn a b) <= M)%Z.
Hypothesis M_total : ((Z.of_nat n + 1) * M < 2147483647)%Z.
Hypothesis inside : forall w r, cand_word bow cands n w -> after bosp bow cands n r -> view (w_left w) r <> None.
Hypothesis inside_eos : forall r, after bosp bow cands n r -> view (w_left (eos_word eosp n)) r <> None.

Let bright := w_right (bos_word bosp).
Let eleft := w_left (eos_word eosp n).

Definition path_ok (q : list wnode) : Prop :=
  tiles 0 (map to_step q) n /\ Forall (cand_word bow cands n) q /\
  allowed conn INHIBITED bright (map to_step q) eleft.

Lemma best_path_optimal lat lat' : clean bosp lat ->
  build_lattice view eosp bow cands lat n = (lat', None) ->
  match get_best_path lat' with
  | Ok p => path_ok p /\ forall q, path_ok q ->
      (cost_from conn bright (map to_step p) eleft <= cost_from conn bright (map to_step q) eleft)%Z
  | Err e => e = EAttribute /\ forall q, ~ path_ok q
  end.
Proof.
  intros Hc E.
  pose proof (best_path_chain view bosp eosp bow cands n cands_ok cands_begin lat lat') as HP.
  destruct (build_lattice_spec view bosp eosp bow cands n M cands_ok cands_begin M_word M_conn M_total inside inside_eos M_eos lat lat' Hc E)
    as (_ & _ & (tot & prev & Ee & Hb) & _).
  assert (Hbeg : w_begin (eos_word eosp n) = n) by (unfold eos_word; destruct eosp as [[? ?] ?]; reflexivity).
  assert (Hq : forall q, path_ok q -> rpath bow cands n (rev q) n /\ rallowed view bosp (eos_word eosp n :: rev q) /\
     (rcost view bosp (eos_word eosp n :: rev q) = cost_from conn bright (map to_step q) eleft + w_cost (eos_word eosp n))%Z).
  { intros q (H1 & H2 & H3). split.
    - apply rpath_tiles; auto. rewrite rev_involutive. split; auto. now apply Forall_rev.
    - cbn [rallowed rcost]. rewrite (rcost_cost view bosp (rev q)), rev_involutive. split; [|reflexivity].
      apply (rallowed_allowed view bosp (rev q)). now rewrite rev_involutive. }
  specialize (HP).
  destruct (get_best_path lat') as [p|e] eqn:Ep.
  - assert (Hp : path_ok p) by (apply HP; auto). split; auto. intros q Hqo.
    unfold get_best_path in Ep. rewrite Ee in Ep. cbn [ln_prev] in Ep.
    destruct prev as [l|]; [|discriminate]. apply bind_ok in Ep as (r & Hr & [= <-]).
    destruct Hb as (r0 & Hr0 & Hrp & Hra & _ & Hmin). rewrite Hr in Hr0. injection Hr0 as <-.
    destruct (Hq q Hqo) as (Q1 & Q2 & Q3). rewrite Hbeg in Hmin. specialize (Hmin _ Q1 Q2).
    destruct (Hq _ Hp) as (_ & _ & P3). rewrite rev_involutive in P3. lia.
  - unfold get_best_path in Ep. rewrite Ee in Ep. cbn [ln_prev] in Ep. destruct prev as [l|].
    + exfalso. destruct Hb as (r0 & Hr0 & _). rewrite Hr0 in Ep. discriminate.
    + injection Ep as <-. split; auto. intros q Hqo. destruct (Hq q Hqo) as (Q1 & Q2 & _).
      cbn in Hb. rewrite Hbeg in Hb. exact (Hb _ Q1 Q2).
Qed.
End optimum.
