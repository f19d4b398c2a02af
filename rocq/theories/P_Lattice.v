(** Proofs about the lattice: the best path is found. *)
From Coq Require Import List ZArith Lia Bool Arith.
From Verif Require Import Base M_Builder M_InputText M_Lattice M_Oov M_Tokenizer S_Lattice.
Import ListNotations.
Open Scope Z_scope.

Lemma wrap32_id z : - 2147483648 <= z <= 2147483647 -> wrap32 z = z.
Proof. intros H. unfold wrap32. rewrite Z.mod_small by lia. lia. Qed.

(** ** The loop of [connect_node] *)

Definition eligible (conn : Z -> Z -> Z) (w : wnode) (l : lnode) : Prop :=
  connected l = true /\ conn (w_left w) (w_right (ln_word l)) <> INHIBITED.
Definition link_cost (conn : Z -> Z -> Z) (w : wnode) (l : lnode) : Z :=
  wrap32 (ln_total l + conn (w_left w) (w_right (ln_word l))).

Lemma eligible_dec conn w l : {eligible conn w l} + {~ eligible conn w l}.
Proof.
  unfold eligible. destruct (connected l) eqn:E; [|right; intros (H & _); discriminate].
  destruct (Z.eq_dec (conn (w_left w) (w_right (ln_word l))) INHIBITED); [right; tauto|left; auto].
Qed.

(** The loop when no cell is missing, as a fold *)
Definition connect_step (conn : Z -> Z -> Z) (w : wnode) (acc : Z * option lnode) (l : lnode) : Z * option lnode :=
  if negb (connected l) then acc
  else
    let c := conn (w_left w) (w_right (ln_word l)) in
    if c =? INHIBITED then acc
    else
      let cost := wrap32 (ln_total l + c) in
      if cost <? fst acc then (cost, Some l) else acc.

(** The cell for connecting [l] to [w] *)
Definition cell_of (view : Z -> Z -> option Z) (w : wnode) (l : lnode) : option Z := view (w_left w) (w_right (ln_word l)).

Lemma connect_loop_cases view w ls : forall acc,
  (connect_loop view w ls acc = (fold_left (connect_step (cost_of view) w) ls acc, true) /\
     forall l, In l ls -> connected l = true -> cell_of view w l <> None) \/
  (snd (connect_loop view w ls acc) = false /\ exists l, In l ls /\ connected l = true /\ cell_of view w l = None).
Proof.
  unfold cell_of. induction ls as [|l ls IH]; intros acc; cbn [connect_loop fold_left]; [left; split; [reflexivity|intros ? []]|].
  unfold connect_step at 2. destruct (connected l) eqn:Ec; cbn [negb].
  - destruct (view (w_left w) (w_right (ln_word l))) as [c|] eqn:Ev.
    + assert (EC : cost_of view (w_left w) (w_right (ln_word l)) = c) by (unfold cost_of; now rewrite Ev). rewrite EC. clear EC.
      destruct (c =? INHIBITED) eqn:Ei.
      * destruct (IH acc) as [(-> & H)|(H & x & Hx)]; [left|right; split; [exact H|exists x; split; [now right|apply Hx]]].
        split; [reflexivity|]. intros x [<-|Hx] Hc; [congruence|now apply H].
      * cbn zeta. match goal with |- context [connect_loop view w ls ?a] => destruct (IH a) as [(-> & H)|(H & x & Hx)] end;
          [left|right; split; [exact H|exists x; split; [now right|apply Hx]]].
        split; [reflexivity|]. intros x [<-|Hx] Hc; [congruence|now apply H].
    + right. split; [reflexivity|]. exists l. split; [now left|auto].
  - destruct (IH acc) as [(-> & H)|(H & x & Hx)]; [left|right; split; [exact H|exists x; split; [now right|apply Hx]]].
    split; [reflexivity|]. intros x [<-|Hx] Hc; [congruence|now apply H].
Qed.

(** The node that is made, in the two cases *)
Lemma connect_node_cases view lists w nd : connect_node view lists w = Ok nd ->
  exists ls, nth_error lists (w_begin w) = Some ls /\ ln_word nd = w /\ ln_bos nd = false /\
  (((forall l, In l ls -> connected l = true -> cell_of view w l <> None) /\
    let '(tot, prev) := fold_left (connect_step (cost_of view) w) ls (INT_MAX, None) in
    nd = LN w false (wrap32 (tot + w_cost w)) prev) \/
   ((exists l, In l ls /\ connected l = true /\ cell_of view w l = None) /\ ln_prev nd = None)).
Proof.
  intros E. unfold connect_node in E. apply bind_ok in E as (ls & Els & E). apply get_ok in Els.
  exists ls. split; [exact Els|]. destruct (connect_loop_cases view w ls (INT_MAX, None)) as [(EL & H)|(EL & H)].
  - rewrite EL in E. destruct (fold_left _ _ _) as [tot prev]. injection E as <-.
    split; [reflexivity|]. split; [reflexivity|]. left. split; [exact H|reflexivity].
  - destruct (connect_loop _ _ _ _) as [[tot prev] b]. cbn in EL. subst b. injection E as <-.
    split; [reflexivity|]. split; [reflexivity|]. right. split; [exact H|reflexivity].
Qed.
Lemma connect_node_total view lists w : (w_begin w < length lists)%nat ->
  exists tot prev, connect_node view lists w = Ok (LN w false tot prev).
Proof.
  intros H. destruct (get_lt lists (w_begin w) H) as (ls & Els). unfold connect_node. rewrite Els. cbn [bind].
  destruct (connect_loop _ _ _ _) as [[tot prev] [|]]; eauto.
Qed.

Lemma connect_step_eq conn w acc l :
  connect_step conn w acc l =
  if eligible_dec conn w l then
    if link_cost conn w l <? fst acc then (link_cost conn w l, Some l) else acc
  else acc.
Proof.
  unfold connect_step, link_cost.
  destruct (eligible_dec conn w l) as [(H1 & H2)|H].
  - rewrite H1. cbn [negb]. apply Z.eqb_neq in H2. now rewrite H2.
  - unfold eligible in H. destruct (connected l); cbn [negb]; auto.
    destruct (Z.eqb_spec (conn (w_left w) (w_right (ln_word l))) INHIBITED); auto. tauto.
Qed.

(** The result of the loop: the first of the cheapest eligible predecessors that
    beat the initial value. *)
Lemma connect_fold conn w ls t0 p0 :
  let '(t, p) := fold_left (connect_step conn w) ls (t0, p0) in
  t <= t0 /\ (forall l, In l ls -> eligible conn w l -> t <= link_cost conn w l) /\
  ((t = t0 /\ p = p0 /\ forall l, In l ls -> eligible conn w l -> t0 <= link_cost conn w l) \/
   exists pre l post, ls = pre ++ l :: post /\ p = Some l /\ eligible conn w l /\ t = link_cost conn w l /\ t < t0 /\
     (forall x, In x pre -> eligible conn w x -> t < link_cost conn w x)).
Proof.
  revert t0 p0. induction ls as [|a ls IH]; intros t0 p0; cbn [fold_left].
  - split; [lia|]. split; [intros ? []|]. left. split; auto. split; auto. intros ? [].
  - rewrite connect_step_eq. destruct (eligible_dec conn w a) as [Ha|Ha].
    + cbn [fst]. destruct (Z.ltb_spec (link_cost conn w a) t0) as [Hlt|Hge].
      * specialize (IH (link_cost conn w a) (Some a)).
        destruct (fold_left _ _ _) as [t p]. destruct IH as (H1 & H2 & H3).
        split; [lia|]. split; [intros l [<-|Hl] He; auto|].
        right. destruct H3 as [(-> & -> & Hall)|(pre & l & post & -> & -> & He & Ht & Hl & Hpre)].
        -- exists [], a, ls. repeat split; auto; try apply Ha; try lia. intros x [].
        -- exists (a :: pre), l, post. repeat split; auto; try apply He; try lia.
           intros x [<-|Hx] Hex; [lia|auto].
      * specialize (IH t0 p0). destruct (fold_left _ _ _) as [t p]. destruct IH as (H1 & H2 & H3).
        split; [lia|]. split; [intros l [<-|Hl] He; [lia|auto]|].
        destruct H3 as [(-> & -> & Hall)|(pre & l & post & -> & -> & He & Ht & Hl & Hpre)].
        -- left. split; auto. split; auto. intros x [<-|Hx] Hex; [lia|auto].
        -- right. exists (a :: pre), l, post. repeat split; auto; try apply He; try lia.
           intros x [<-|Hx] Hex; [lia|auto].
    + specialize (IH t0 p0). destruct (fold_left _ _ _) as [t p]. destruct IH as (H1 & H2 & H3).
      split; [lia|]. split; [intros l [<-|Hl] He; [contradiction|auto]|].
      destruct H3 as [(-> & -> & Hall)|(pre & l & post & -> & -> & He & Ht & Hl & Hpre)].
      * left. split; auto. split; auto. intros x [<-|Hx] Hex; [contradiction|auto].
      * right. exists (a :: pre), l, post. repeat split; auto; try apply He; try lia.
        intros x [<-|Hx] Hex; [contradiction|auto].
Qed.

Lemma set_nth_total {A} (l : list A) i a : (i < length l)%nat ->
  exists l', set_nth l i a = Ok l' /\ length l' = length l /\
    forall j, nth_error l' j = if (j =? i)%nat then Some a else nth_error l j.
Proof.
  revert i. induction l as [|x l IH]; cbn [length]; intros i H; [lia|].
  destruct i as [|i].
  - exists (a :: l). cbn. split; auto. split; auto. intros [|j]; auto.
  - destruct (IH i) as (l' & E & L & N); [lia|]. exists (x :: l'). cbn. rewrite E. cbn.
    split; auto. split; [lia|]. intros [|j]; auto. cbn. apply N.
Qed.

(** ** Paths, from the last word backwards *)
Section viterbi.
Variable view : Z -> Z -> option Z.
Notation conn := (cost_of view).
Variable bosp eosp : Z * Z * Z.
Variable bow : nat -> res bool.
Variable cands : nat -> gen wnode.
Variable n : nat.
(** [M]: bound on a word cost plus a connection cost *)
Variable M : Z.

Definition cand_word (w : wnode) : Prop :=
  (w_begin w < n)%nat /\ bow (w_begin w) = Ok true /\ In w (fst (cands (w_begin w))).

Hypothesis cands_ok : forall w, cand_word w -> (w_begin w < w_end w <= n)%nat.
Hypothesis cands_begin : forall i w, In w (fst (cands i)) -> w_begin w = i.
Hypothesis M_word : forall w a b, cand_word w -> Z.abs (w_cost w + conn a b) <= M.
Hypothesis M_conn : forall a b, Z.abs (conn a b) <= M.
Hypothesis M_total : (Z.of_nat n + 1) * M < 2147483647.

Let bos := bos_node bosp.
Let br := w_right (bos_word bosp).

(** every cell that may be looked up for a candidate is in the matrix *)
Definition after (r : Z) : Prop := r = br \/ exists x, cand_word x /\ r = w_right x.
Hypothesis inside : forall w r, cand_word w -> after r -> view (w_left w) r <> None.

Definition right_of (r : list wnode) : Z := match r with [] => br | w :: _ => w_right w end.

Inductive rpath : list wnode -> nat -> Prop :=
| rp_nil : rpath [] 0
| rp_cons w r : rpath r (w_begin w) -> cand_word w -> rpath (w :: r) (w_end w).

Fixpoint rallowed (r : list wnode) : Prop :=
  match r with
  | [] => True
  | w :: r' => conn (w_left w) (right_of r') <> INHIBITED /\ rallowed r'
  end.
Fixpoint rcost (r : list wnode) : Z :=
  match r with
  | [] => 0
  | w :: r' => rcost r' + conn (w_left w) (right_of r') + w_cost w
  end.

Lemma rpath_le r e : rpath r e -> (e <= n)%nat.
Proof. destruct 1; [lia|]. apply cands_ok in H0. lia. Qed.

Lemma rpath_end_pos r e : rpath r e -> r <> [] -> (0 < e)%nat.
Proof. destruct 1; [congruence|]. apply cands_ok in H0. lia. Qed.

Lemma M_pos : 0 <= M.
Proof. pose proof (M_conn 0 0). lia. Qed.

Lemma rcost_bound r e : rpath r e -> Z.abs (rcost r) <= Z.of_nat e * M.
Proof.
  induction 1; cbn [rcost]; [lia|].
  pose proof (M_word w (w_left w) (right_of r) H0). apply cands_ok in H0.
  pose proof M_pos. nia.
Qed.

(** ** The state of the lattice *)

Definition node_at (lists : list (list lnode)) (e : nat) (l : lnode) : Prop :=
  exists ls, nth_error lists e = Some ls /\ In l ls.

(** [l] carries the cheapest path to (and including) word [w]. *)
Definition best_to (w : wnode) (total : Z) (prev : option lnode) : Prop :=
  match prev with
  | Some l =>
    exists r0, back l = Ok r0 /\ rpath r0 (w_begin w) /\ rallowed (w :: r0) /\
      total = rcost (w :: r0) /\
      forall r, rpath r (w_begin w) -> rallowed (w :: r) -> rcost (w :: r0) <= rcost (w :: r)
  | None => forall r, rpath r (w_begin w) -> ~ rallowed (w :: r)
  end.

(** The lattice holds the reachable candidates in [D] and nothing else. *)
Record lat_inv (D : wnode -> Prop) (lists : list (list lnode)) : Prop := {
  li_len : (n < length lists)%nat;
  li_bos : nth_error lists 0 = Some [bos];
  li_above : forall e ls, (n < e)%nat -> nth_error lists e = Some ls -> ls = [];
  li_sound : forall e l, (0 < e)%nat -> node_at lists e l ->
    ln_bos l = false /\ w_end (ln_word l) = e /\ D (ln_word l) /\ cand_word (ln_word l) /\
    (exists r, rpath r (w_begin (ln_word l))) /\ best_to (ln_word l) (ln_total l) (ln_prev l);
  li_complete : forall w r, cand_word w -> D w -> rpath r (w_begin w) ->
    exists l, node_at lists (w_end w) l /\ ln_word l = w;
}.

(** Connecting a word at [b], when everything before [b] is in the lattice. *)
Lemma connect_best D lists w :
  lat_inv D lists -> (forall x, cand_word x -> w_end x = w_begin w -> D x) -> (w_begin w <= n)%nat ->
  (forall a b, Z.abs (w_cost w + conn a b) <= M) -> (forall r, after r -> view (w_left w) r <> None) ->
  exists tot prev, connect_node view lists w = Ok (LN w false tot prev) /\ best_to w tot prev.
Proof.
  intros I HD Hn HM HV.
  destruct (nth_error lists (w_begin w)) as [ls|] eqn:El.
  2:{ apply nth_error_None in El. pose proof (li_len _ _ I). lia. }
  assert (Hin : forall l, In l ls -> connected l = true -> cell_of view w l <> None).
  { intros l Hl _. apply HV. destruct (Nat.eq_dec (w_begin w) 0) as [E0|E0].
    - rewrite E0, (li_bos _ _ I) in El. injection El as <-. destruct Hl as [<-|[]]. now left.
    - destruct (li_sound _ _ I (w_begin w) l) as (_ & _ & _ & Hc & _); [lia|exists ls; auto|]. right. exists (ln_word l). auto. }
  destruct (connect_node_total view lists w) as (tot0 & prev0 & EN); [pose proof (li_len _ _ I); lia|].
  destruct (connect_node_cases _ _ _ _ EN) as (ls' & El' & _ & _ & [(_ & HN)|((l & Hl & Hl1 & Hl2) & _)]);
    rewrite El in El'; injection El' as <-; [|exfalso; exact (Hin l Hl Hl1 Hl2)].
  rewrite EN. clear EN.
  pose proof (connect_fold conn w ls INT_MAX None) as Hf.
  destruct (fold_left _ _ _) as [tot prev]. destruct Hf as (_ & Hmin & Hcase). rewrite HN. clear HN tot0 prev0.
  pose proof M_pos as HMp.
  (* the value of an eligible node *)
  assert (Hval : forall l, In l ls -> eligible conn w l ->
    exists r0, back l = Ok r0 /\ rpath r0 (w_begin w) /\ rallowed (w :: r0) /\ right_of r0 = w_right (ln_word l) /\
      ln_total l = rcost r0 /\ link_cost conn w l = rcost r0 + conn (w_left w) (right_of r0) /\
      forall r, rpath r (w_begin w) -> rallowed r ->
        (match r with [] => ln_bos l = true | x :: _ => x = ln_word l /\ ln_bos l = false end) -> rcost r0 <= rcost r).
  { intros l Hl (Hcon & Hinh).
    destruct (Nat.eq_dec (w_begin w) 0) as [E0|E0].
    - rewrite E0 in El. rewrite (li_bos _ _ I) in El. injection El as <-.
      destruct Hl as [<-|[]]. exists []. cbn. rewrite E0.
      repeat split; auto; try constructor; auto.
      + unfold link_cost. cbn. fold br in Hinh |- *. apply wrap32_id. pose proof (M_conn (w_left w) br). nia.
      + intros r Hr _ Hm. destruct r; [cbn; lia|destruct Hm; discriminate].
    - destruct (li_sound _ _ I (w_begin w) l) as (Hb & He & Hlt & Hc & Hr & Hbest); [lia|exists ls; auto|].
      destruct l as [lw lb lt lp]. cbn [ln_word ln_total ln_prev ln_bos] in *. subst lb.
      unfold connected in Hcon. cbn in Hcon. destruct lp as [l'|]; [|discriminate].
      destruct Hbest as (r0 & Hback & Hp & Ha & Ht & Hopt).
      assert (Hp' : rpath (lw :: r0) (w_begin w)) by (rewrite <- He; constructor; auto).
      exists (lw :: r0). cbn [back]. rewrite Hback. cbn [bind].
      split; auto. split; [exact Hp'|]. split; [split; [exact Hinh|exact Ha]|]. split; auto. split; auto. split.
      + unfold link_cost. cbn [ln_total ln_word right_of]. rewrite Ht. apply wrap32_id.
        pose proof (rcost_bound _ _ Hp'). pose proof (M_conn (w_left w) (w_right lw)).
        assert (Z.of_nat (w_begin w) * M <= Z.of_nat n * M) by nia. lia.
      + intros r Hr' Hra Hm. destruct r as [|x r]; [discriminate|]. destruct Hm as (-> & _).
        apply Hopt; auto. inversion Hr'; auto. }
  (* every path is represented *)
  assert (Hrep : forall r, rpath r (w_begin w) -> rallowed (w :: r) ->
    exists l, In l ls /\ eligible conn w l /\ right_of r = w_right (ln_word l) /\
      match r with [] => ln_bos l = true | x :: _ => x = ln_word l /\ ln_bos l = false end).
  { intros r Hr (Hinh & Ha). destruct r as [|x r].
    - assert (E0 : w_begin w = 0%nat) by (inversion Hr; auto). rewrite E0 in El. rewrite (li_bos _ _ I) in El. injection El as <-.
      exists bos. split; [now left|]. split; [split; [reflexivity|exact Hinh]|]. split; reflexivity.
    - assert (Hx : rpath r (w_begin x) /\ cand_word x /\ w_end x = w_begin w) by (inversion Hr; subst; auto).
      destruct Hx as (Hr2 & Hcx & Hex).
      destruct (li_complete _ _ I x r) as (l & (ls' & Els & Hl) & Hw); auto.
      rewrite Hex in Els. rewrite El in Els. injection Els as <-.
      assert (Hpos : (0 < w_begin w)%nat) by (pose proof (cands_ok x Hcx); lia).
      destruct (li_sound _ _ I (w_begin w) l Hpos) as (Hb & _ & _ & _ & _ & Hbest); [exists ls; auto|].
      exists l. split; auto. split; [|subst x; auto].
      split; [|rewrite Hw; exact Hinh].
      unfold connected. rewrite Hb. destruct (ln_prev l) as [l'|]; auto.
      exfalso. rewrite Hw in Hbest. apply (Hbest r); auto. }
  exists (wrap32 (tot + w_cost w)), prev. split; [reflexivity|].
  assert (Hbd : forall l r0, In l ls -> eligible conn w l -> rpath r0 (w_begin w) -> link_cost conn w l = rcost r0 + conn (w_left w) (right_of r0) ->
     link_cost conn w l < INT_MAX /\ wrap32 (link_cost conn w l + w_cost w) = rcost (w :: r0)).
  { intros l r0 Hl He Hp Hlc. pose proof (rcost_bound _ _ Hp) as Hb.
    pose proof (HM (w_left w) (right_of r0)). pose proof (M_conn (w_left w) (right_of r0)).
    assert (Z.of_nat (w_begin w) * M <= Z.of_nat n * M) by nia.
    rewrite Hlc. split; [unfold INT_MAX; lia|].
    cbn [rcost]. apply wrap32_id. lia. }
  destruct Hcase as [(-> & -> & Hall)|(pre & l & post & -> & -> & He & Ht & _ & _)].
  - cbn [best_to]. intros r Hr Ha. destruct (Hrep r Hr Ha) as (l & Hl & He & _).
    destruct (Hval l Hl He) as (r0 & _ & Hp & _ & _ & _ & Hlc & _).
    destruct (Hbd l r0 Hl He Hp Hlc) as (Hlt & _). specialize (Hall l Hl He). lia.
  - assert (Hl : In l (pre ++ l :: post)) by (apply in_or_app; right; now left).
    destruct (Hval l Hl He) as (r0 & Hback & Hp & Ha & Hright & Htot & Hlc & _).
    destruct (Hbd l r0 Hl He Hp Hlc) as (_ & Hw).
    cbn [best_to]. exists r0. split; auto. split; auto. split; auto. split; [rewrite Ht; exact Hw|].
    intros r Hr Har. destruct (Hrep r Hr Har) as (l2 & Hl2 & He2 & Hright2 & Hm2).
    destruct (Hval l2 Hl2 He2) as (r2 & _ & Hp2 & _ & Hr2 & _ & Hlc2 & Hopt2).
    specialize (Hmin l2 Hl2 He2). destruct Har as (_ & Har).
    specialize (Hopt2 r Hr Har Hm2). cbn [rcost]. rewrite Ht, Hlc, Hlc2 in Hmin.
    rewrite Hright2. rewrite Hr2 in Hmin. lia.
Qed.

Lemma lat_inv_ext (D D' : wnode -> Prop) lists :
  (forall w r, cand_word w -> rpath r (w_begin w) -> D w <-> D' w) -> lat_inv D lists -> lat_inv D' lists.
Proof.
  intros H I. constructor; try apply I.
  - intros e l He Hl. destruct (li_sound _ _ I e l He Hl) as (A1 & A2 & A3 & A4 & (r & A5) & A6).
    repeat split; auto; try apply A4. + apply (H _ r); auto. + eauto.
  - intros w r Hc Hd Hr. apply (li_complete _ _ I w r); auto. apply (H _ r); auto.
Qed.

(** Inserting one more candidate. *)
Lemma insert_inv D lat w r :
  lat_inv D (l_lists lat) -> (forall x, cand_word x -> w_end x = w_begin w -> D x) ->
  cand_word w -> rpath r (w_begin w) ->
  exists lat', lat_insert view lat w = Ok lat' /\ lat_inv (fun x => D x \/ x = w) (l_lists lat') /\
    l_size lat' = l_size lat /\ l_cap lat' = l_cap lat /\ l_eos lat' = l_eos lat /\
    length (l_lists lat') = length (l_lists lat).
Proof.
  intros I HD Hc Hr. pose proof (cands_ok w Hc) as Hw.
  destruct (connect_best D (l_lists lat) w I HD) as (tot & prev & Hcn & Hbest); [lia| | |].
  { intros a b. apply M_word; auto. }
  { intros a. apply inside; auto. }
  unfold lat_insert. pose proof (li_len _ _ I) as Hlen.
  destruct (get_lt (l_lists lat) (w_end w)) as (ls & Els); [lia|]. rewrite Els. cbn [bind].
  rewrite Hcn. cbn [bind].
  destruct (set_nth_total (l_lists lat) (w_end w) (ls ++ [LN w false tot prev])) as (lists' & Es & Hl' & Hn'); [lia|].
  rewrite Es. cbn [bind]. eexists. split; [reflexivity|]. cbn [l_lists l_size l_cap l_eos].
  split; [|auto].
  apply get_ok in Els.
  constructor.
  - lia.
  - rewrite Hn'. destruct (Nat.eqb_spec 0 (w_end w)); [lia|]. apply (li_bos _ _ I).
  - intros e ls' He. rewrite Hn'. destruct (Nat.eqb_spec e (w_end w)); [lia|]. intros. now apply (li_above _ _ I e).
  - intros e l He (ls' & El & Hl). rewrite Hn' in El. destruct (Nat.eqb_spec e (w_end w)) as [->|Hne].
    + injection El as <-. apply in_app_or in Hl as [Hl|[<-|[]]].
      * destruct (li_sound _ _ I (w_end w) l He) as (A1 & A2 & A3 & A4 & A5 & A6); [exists ls; auto|]. tauto.
      * cbn [ln_bos ln_word ln_total ln_prev]. repeat split; auto; try apply Hc. eauto.
    + destruct (li_sound _ _ I e l He) as (A1 & A2 & A3 & A4 & A5 & A6); [exists ls'; auto|]. tauto.
  - intros x rx Hcx Hdx Hrx.
    assert (Hold : D x -> exists l, node_at lists' (w_end x) l /\ ln_word l = x).
    { intros Hd. destruct (li_complete _ _ I x rx Hcx Hd Hrx) as (l & (ls' & El & Hl) & Hlw).
      exists l. split; auto. unfold node_at. rewrite Hn'. destruct (Nat.eqb_spec (w_end x) (w_end w)) as [E|E].
      - rewrite E, Els in El. injection El as <-. eexists. split; [reflexivity|]. apply in_or_app; auto.
      - eauto. }
    destruct Hdx as [Hd| ->]; [auto|].
    eexists. split; [|]. 
    + unfold node_at. rewrite Hn', Nat.eqb_refl. eexists. split; [reflexivity|]. apply in_or_app. right. now left.
    + reflexivity.
Qed.

Lemma insert_all_inv ws : forall D lat i,
  lat_inv D (l_lists lat) -> (forall x, cand_word x -> (w_begin x < i)%nat -> D x) ->
  (forall w, In w ws -> cand_word w /\ w_begin w = i) -> (exists r, rpath r i) ->
  exists lat', insert_all view lat ws = (lat', None) /\ lat_inv (fun x => D x \/ In x ws) (l_lists lat') /\
    l_size lat' = l_size lat /\ l_cap lat' = l_cap lat /\ l_eos lat' = l_eos lat /\
    length (l_lists lat') = length (l_lists lat).
Proof.
  induction ws as [|w ws IH]; intros D lat i I HD Hws (r & Hr); cbn [insert_all].
  - exists lat. split; auto. split; [|auto]. eapply lat_inv_ext; [|exact I]. simpl. tauto.
  - destruct (Hws w (or_introl eq_refl)) as (Hc & Hb).
    destruct (insert_inv D lat w r I) as (lat1 & E1 & I1 & S1 & C1 & O1 & L1); auto.
    { intros x Hx Hex. apply HD; auto. pose proof (cands_ok x Hx). lia. }
    { now rewrite Hb. }
    rewrite E1.
    destruct (IH (fun x => D x \/ x = w) lat1 i I1) as (lat2 & E2 & I2 & S2 & C2 & O2 & L2).
    { intros x Hx Hlt. left. auto. }
    { intros x Hx. apply Hws. now right. }
    { eauto. }
    exists lat2. split; auto. split; [|repeat split; congruence].
    eapply lat_inv_ext; [|exact I2]. simpl. intros x _ _ _. split; intros H; intuition.
Qed.

(** A position at which some node ends is reached by a path, and conversely. *)
Lemma reachable D lists i : (i <= n)%nat -> lat_inv D lists ->
  (forall x, cand_word x -> w_end x = i -> D x) ->
  exists ls, nth_error lists i = Some ls /\ (ls <> [] <-> exists r, rpath r i).
Proof.
  intros Hi I HD. destruct (nth_error lists i) as [ls|] eqn:E.
  2:{ apply nth_error_None in E. pose proof (li_len _ _ I). lia. }
  exists ls. split; auto. split.
  - intros Hne. destruct i as [|i]; [exists []; constructor|].
    destruct ls as [|l ls]; [congruence|].
    destruct (li_sound _ _ I (S i) l) as (_ & A2 & _ & A4 & (r & A5) & _); [lia|exists (l :: ls); split; auto; now left|].
    exists (ln_word l :: r). rewrite <- A2. now constructor.
  - intros (r & Hr). inversion Hr as [E0 E1|w r' Hr' Hc E0 E1]; subst.
    + rewrite (li_bos _ _ I) in E. injection E as <-. discriminate.
    + destruct (li_complete _ _ I w r' Hc) as (l & (ls' & El & Hl) & _); auto.
      rewrite El in E. injection E as <-. intros ->. contradiction.
Qed.

Lemma build_from_inv k : forall lat i lat',
  (i + k = n)%nat -> lat_inv (fun x => (w_begin x < i)%nat) (l_lists lat) ->
  build_from view bow cands lat i k = (lat', None) ->
  lat_inv (fun x => (w_begin x < n)%nat) (l_lists lat') /\
    l_size lat' = l_size lat /\ l_cap lat' = l_cap lat /\ l_eos lat' = l_eos lat /\
    length (l_lists lat') = length (l_lists lat) /\
    (forall j r, (i <= j < n)%nat -> bow j = Ok true -> rpath r j -> snd (cands j) = None).
Proof.
  induction k as [|k IH]; intros lat i lat' Hik I E; cbn [build_from] in E.
  - injection E as <-. replace i with n in * by lia. split; auto. repeat split; auto. intros; lia.
  - destruct (build_at view bow cands lat i) as [lat1 [x|]] eqn:Ea; [discriminate|].
    assert (Hstep : lat_inv (fun x => (w_begin x < S i)%nat) (l_lists lat1) /\
      l_size lat1 = l_size lat /\ l_cap lat1 = l_cap lat /\ l_eos lat1 = l_eos lat /\
      length (l_lists lat1) = length (l_lists lat) /\
      (forall r, bow i = Ok true -> rpath r i -> snd (cands i) = None)).
    { destruct (reachable (fun x => (w_begin x < i)%nat) (l_lists lat) i) as (ls & Els & Hre); auto; [lia| |].
      { intros x Hx Hex. pose proof (cands_ok x Hx). lia. }
      unfold build_at in Ea. destruct (bow i) as [[|]|] eqn:Eb; [| |discriminate].
      2:{ injection Ea as <-. split; [|repeat split; auto; congruence].
          eapply lat_inv_ext; [|exact I]. intros w r (_ & Hw & _) _. split; [lia|].
          intros Hlt. destruct (Nat.eq_dec (w_begin w) i) as [Heq|]; [rewrite Heq in Hw; congruence|lia]. }
      unfold has_previous_node, get in Ea. rewrite Els in Ea. cbn [bind] in Ea.
      destruct ls as [|l ls].
      - injection Ea as <-. split.
        2:{ repeat split; auto. intros r _ Hr. exfalso. apply (proj2 Hre); eauto. }
        eapply lat_inv_ext; [|exact I]. intros w r Hw Hr. split; [lia|].
        intros Hlt. destruct (Nat.eq_dec (w_begin w) i) as [Heq|]; [|lia].
        exfalso. apply (proj2 Hre); auto. exists r. now rewrite <- Heq.
      - destruct (proj1 Hre) as (r0 & Hr0); [discriminate|].
        destruct (cands i) as [ws x] eqn:Ec.
        destruct (insert_all_inv ws (fun x => (w_begin x < i)%nat) lat i I) as (lat2 & E2 & I2 & S2 & C2 & O2 & L2); eauto.
        { intros w Hw. assert (Hb : w_begin w = i) by (apply cands_begin; now rewrite Ec).
          split; auto. split; [lia|]. rewrite Hb. split; auto. now rewrite Ec. }
        rewrite E2 in Ea. injection Ea as <- ->. split; [|repeat split; auto].
        eapply lat_inv_ext; [|exact I2]. simpl. intros w r (_ & _ & Hw) _. split.
        + intros [H|H]; [lia|]. assert (w_begin w = i) by (apply cands_begin; now rewrite Ec). lia.
        + intros Hlt. destruct (Nat.eq_dec (w_begin w) i) as [Heq|]; [|left; lia].
          right. rewrite Heq, Ec in Hw. exact Hw. }
    destruct Hstep as (I1 & S1 & C1 & O1 & L1 & X1).
    destruct (IH lat1 (S i) lat' ltac:(lia) I1 E) as (I2 & S2 & C2 & O2 & L2 & X2).
    split; auto. repeat split; try congruence.
    intros j r Hj. destruct (Nat.eq_dec i j) as [<-|]; [intros; now apply (X1 r)|intros; apply (X2 j r); auto; lia].
Qed.

(** ** From a clean lattice *)

Definition clean (lat : lattice) : Prop :=
  l_size lat = 0%nat /\ exists k, l_lists lat = [bos] :: repeat [] k /\ (l_cap lat <= k)%nat.

Lemma nth_error_repeat {A} (x : A) k i y : nth_error (repeat x k) i = Some y -> y = x.
Proof. intros H. apply nth_error_In in H. now apply repeat_spec in H. Qed.

Lemma resize_inv lat : clean lat -> lat_inv (fun x => (w_begin x < 0)%nat) (l_lists (lat_resize eosp lat n)).
Proof.
  intros (Hs & k & Hl & Hk).
  assert (H : exists k', (n <= k')%nat /\ l_lists (lat_resize eosp lat n) = [bos] :: repeat [] k').
  { unfold lat_resize. destruct (Nat.ltb_spec (l_cap lat) n); cbn [l_lists lat_expand].
    - exists (k + (n - l_size lat))%nat. split; [lia|]. rewrite Hl, repeat_app. reflexivity.
    - exists k. split; auto. lia. }
  destruct H as (k' & Hk' & ->). constructor.
  - cbn [length]. rewrite repeat_length. lia.
  - reflexivity.
  - intros [|e] ls He Hn; [lia|]. cbn in Hn. now apply nth_error_repeat in Hn.
  - intros [|e] l He (ls & Hn & Hin); [lia|]. cbn in Hn. apply nth_error_repeat in Hn. subst. contradiction.
  - intros; lia.
Qed.

Hypothesis inside_eos : forall r, after r -> view (w_left (eos_word eosp n)) r <> None.
Hypothesis M_eos : forall a b, Z.abs (w_cost (eos_word eosp n) + conn a b) <= M.

Lemma eos_begin : w_begin (eos_word eosp n) = n.
Proof. unfold eos_word. destruct eosp as [[? ?] ?]. reflexivity. Qed.

(** The whole construction. *)
Theorem build_lattice_spec lat lat' :
  clean lat -> build_lattice view eosp bow cands lat n = (lat', None) ->
  lat_inv (fun x => (w_begin x < n)%nat) (l_lists lat') /\ l_size lat' = n /\
  (exists tot prev, l_eos lat' = Some (LN (eos_word eosp n) false tot prev) /\ best_to (eos_word eosp n) tot prev) /\
  (forall j r, (j < n)%nat -> bow j = Ok true -> rpath r j -> snd (cands j) = None).
Proof.
  intros Hclean E. unfold build_lattice in E.
  destruct (build_from _ _ _ _ _ _) as [lat1 [x|]] eqn:E1; [discriminate|].
  apply build_from_inv in E1; [|lia|now apply resize_inv].
  destruct E1 as (I1 & S1 & C1 & O1 & L1 & X1).
  unfold connect_eos in E. rewrite O1 in E. cbn [lat_resize l_eos ln_word] in E.
  destruct (connect_best _ (l_lists lat1) (eos_word eosp n) I1) as (tot & prev & Hc & Hb).
  { rewrite eos_begin. intros w Hw _. destruct Hw. auto. }
  { rewrite eos_begin. lia. }
  { exact M_eos. }
  { exact inside_eos. }
  rewrite Hc in E. cbn [bind] in E. injection E as <-. cbn [l_lists l_size l_eos].
  split; auto. split; [rewrite S1; reflexivity|]. split; [eauto|].
  intros j r Hj. apply X1. lia.
Qed.
End viterbi.
