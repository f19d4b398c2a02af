(** Properties C13 and C14: character categories. *)
From Coq Require Import List ZArith Lia Bool Arith Permutation Sorted.
From Verif Require Import Base Utf8 M_Builder M_CharCategory P_InputText P_CharCategory.
Import ListNotations.
Open Scope Z_scope.

(** The definition file gives category [c] to code point [cp]. *)
Definition defines (ranges : list range) (cp : Z) (c : cat) : Prop :=
  exists r, In r ranges /\ r_low r <= cp < r_high r /\ In c (r_cats r).
Definition in_some_range (ranges : list range) (cp : Z) : Prop :=
  exists r, In r ranges /\ r_low r <= cp < r_high r.

(** A priority queue: one that takes out the first of the ranges with the smallest
    end; it shows that [pop_ok] can be met. *)
Fixpoint pop_first (q : list range) : option (range * list range) :=
  match q with
  | [] => None
  | x :: q' =>
    match pop_first q' with
    | None => Some (x, [])
    | Some (m, rest) => if r_high x <=? r_high m then Some (x, q') else Some (m, x :: rest)
    end
  end.

Lemma pop_first_ok : pop_ok pop_first.
Proof.
  split.
  - intros [|x q] H; [congruence|]. simpl. destruct (pop_first q) as [[m rest]|]; [destruct (_ <=? _)|]; eauto.
  - induction q as [|x q IH]; intros y q' H; [discriminate|]. simpl in H.
    destruct (pop_first q) as [[m rest]|] eqn:E.
    + destruct (IH _ _ eq_refl) as (P & M).
      destruct (Z.leb_spec (r_high x) (r_high m)); injection H as <- <-.
      * split; auto. intros z Hz. eapply Permutation_in in Hz; [|exact P].
        destruct Hz as [<-|Hz]; [lia|]. specialize (M z Hz). lia.
      * split; [rewrite P; apply perm_swap|]. intros z [<-|Hz]; [lia|auto].
    + injection H as <- <-. destruct q; [|simpl in E; destruct (pop_first q) as [[? ?]|]; try destruct (_ <=? _); discriminate].
      split; auto. intros z [].
Qed.

(** ** C13 *)
(** Whatever the ranges, and however the queue breaks ties, compilation succeeds
    and the lookup returns exactly the union (without repetitions). *)
Theorem C13_category_union (pop : list range -> option (range * list range)) (ranges : list range) :
  pop_ok pop -> ranges <> [] -> Forall (fun r => r_low r < r_high r) ranges ->
  exists table, compile pop ranges = Ok table /\
  forall cp, exists cats, get_category_types table cp = Ok cats /\ NoDup cats /\
    (in_some_range ranges cp -> forall c, In c cats <-> defines ranges cp c) /\
    (~ in_some_range ranges cp -> cats = [DEFAULT]).
Proof.
  intros Hp Hne Hok. destruct (compile_spec pop Hp ranges Hok Hne) as (l & E & Hl & Ht & Hg & Hc).
  exists l. split; auto. intros cp.
  destruct (get_category_types_spec l cp Ht) as (cs & Ecs & [(o & Ho & Hin & ->)|(-> & Hn)]).
  - exists (r_cats o). split; auto. eapply Forall_forall in Hg; [|exact Ho].
    destruct Hg as (Hnd & Hg). destruct (Hg cp Hin) as (Hs & Hcs). split; auto. split.
    + intros _. exact Hcs.
    + intros Hno. contradiction.
  - exists [DEFAULT]. split; auto. split; [repeat constructor; auto|]. split; auto.
    intros (r & Hr & Hcp). exfalso. apply Hn. eauto.
Qed.
Print Assumptions C13_category_union.

(** If every line names a category then no character is left without one: this is
    the hypothesis under which the input text model is proved total (C01-C10). *)
Corollary C13_never_empty pop ranges table cp cats :
  pop_ok pop -> ranges <> [] -> Forall (fun r => r_low r < r_high r /\ r_cats r <> []) ranges ->
  compile pop ranges = Ok table -> get_category_types table cp = Ok cats -> cats <> [].
Proof.
  intros Hp Hne Hok Ec Eg.
  assert (Hok' : Forall (fun r => r_low r < r_high r) ranges).
  { eapply Forall_impl; [|exact Hok]. simpl. tauto. }
  destruct (C13_category_union pop ranges Hp Hne Hok') as (t & Et & H).
  rewrite Ec in Et. injection Et as <-.
  destruct (H cp) as (cs & Ecs & _ & H1 & H2). rewrite Eg in Ecs. injection Ecs as <-.
  assert (Hdec : in_some_range ranges cp \/ ~ in_some_range ranges cp).
  { destruct (existsb (fun r => r_contains r cp) ranges) eqn:E.
    - left. apply existsb_exists in E as (r & Hr & Hc). apply contains_spec in Hc. exists r; auto.
    - right. intros (r & Hr & Hc). apply contains_spec in Hc.
      assert (existsb (fun r => r_contains r cp) ranges = true) by (apply existsb_exists; eauto). congruence. }
  destruct Hdec as [Hin|Hn].
  - destruct Hin as (r & Hr & Hc). pose proof Hok as Hall. eapply Forall_forall in Hall; [|exact Hr].
    destruct Hall as (_ & Hne'). destruct (r_cats r) as [|c cs'] eqn:Er; [congruence|].
    assert (In c cats). { apply H1; [exists r; auto|]. exists r. rewrite Er. repeat split; auto; try lia. now left. }
    intros ->. contradiction.
  - rewrite (H2 Hn). discriminate.
Qed.
Print Assumptions C13_never_empty.

(** An empty definition file makes loading fail. *)
Theorem C13_no_range_fails pop : compile pop [] = Err EIndex.
Proof. reflexivity. Qed.

(* overlapping, nested, touching and duplicated ranges *)
Definition sample_ranges : list range :=
  [Range 48 58 [NUMERIC]; Range 50 52 [KANJI; NUMERIC]; Range 51 70 [ALPHA]; Range 58 60 [ALPHA];
   Range 51 70 [ALPHA]; Range 80 90 [GREEK]; Range 90 95 [GREEK]].
Example C13_nonvacuous :
  pop_ok pop_first /\ sample_ranges <> [] /\ Forall (fun r => r_low r < r_high r /\ r_cats r <> []) sample_ranges /\
  exists t, compile pop_first sample_ranges = Ok t /\
    get_category_types t 49 = Ok [NUMERIC] /\ get_category_types t 51 = Ok [KANJI; NUMERIC; ALPHA] /\
    get_category_types t 69 = Ok [ALPHA] /\ get_category_types t 70 = Ok [DEFAULT] /\
    get_category_types t 94 = Ok [GREEK] /\ get_category_types t 47 = Ok [DEFAULT].
Proof.
  split; [apply pop_first_ok|]. split; [discriminate|]. split.
  { repeat constructor; simpl; try lia; discriminate. }
  eexists. repeat split; vm_compute; reflexivity.
Qed.

(** ** C14 *)
(** The compiled table is sorted with pairwise disjoint entries, and a permutation
    of the lines (and another queue) gives the same categories to every character. *)
Theorem C14_table_and_order (pop pop' : list range -> option (range * list range)) (ranges ranges' : list range) :
  pop_ok pop -> pop_ok pop' -> ranges <> [] -> Forall (fun r => r_low r < r_high r) ranges ->
  Permutation ranges ranges' ->
  exists table table', compile pop ranges = Ok table /\ compile pop' ranges' = Ok table' /\
    (forall i j a b, nth_error table i = Some a -> nth_error table j = Some b -> (i < j)%nat ->
       r_low a <= r_high a /\ r_high a <= r_low b /\ r_low b <= r_high b /\
       ~ exists cp, r_low a <= cp < r_high a /\ r_low b <= cp < r_high b) /\
    forall cp, exists cats cats', get_category_types table cp = Ok cats /\
      get_category_types table' cp = Ok cats' /\ Permutation cats cats'.
Proof.
  intros Hp Hp' Hne Hok Hperm.
  destruct (compile_spec pop Hp ranges Hok Hne) as (l & E & _ & Ht & _).
  assert (Hne' : ranges' <> []).
  { intros ->. apply Permutation_sym, Permutation_nil in Hperm. contradiction. }
  assert (Hok' : Forall (fun r => r_low r < r_high r) ranges') by (eapply Permutation_Forall; eauto).
  destruct (C13_category_union pop ranges Hp Hne Hok) as (t & Et & H).
  destruct (C13_category_union pop' ranges' Hp' Hne' Hok') as (t' & Et' & H').
  exists t, t'. split; auto. split; auto. split.
  - rewrite E in Et. injection Et as <-. intros i j a b Ha Hb Hij. destruct Ht as (Hw & Hs).
    assert (r_high a <= r_low b).
    { eapply sorted_get; eauto; apply get_ok; eauto. }
    apply nth_error_In in Ha, Hb. eapply Forall_forall in Ha; [|exact Hw]. eapply Forall_forall in Hb; [|exact Hw].
    simpl in *. repeat split; auto. intros (cp & ? & ?). lia.
  - intros cp. destruct (H cp) as (cs & Ecs & Hnd & H1 & H2). destruct (H' cp) as (cs' & Ecs' & Hnd' & H1' & H2').
    exists cs, cs'. split; auto. split; auto.
    assert (Hiff : in_some_range ranges cp <-> in_some_range ranges' cp).
    { split; intros (r & Hr & Hc); exists r; split; auto; (eapply Permutation_in; [|exact Hr]); auto. now symmetry. }
    assert (Hdef : forall c, defines ranges cp c <-> defines ranges' cp c).
    { intros c. split; intros (r & Hr & Hc); exists r; split; auto; (eapply Permutation_in; [|exact Hr]); auto. now symmetry. }
    destruct (existsb (fun r => r_contains r cp) ranges) eqn:Ex.
    + assert (Hin : in_some_range ranges cp).
      { apply existsb_exists in Ex as (r & Hr & Hc). apply contains_spec in Hc. exists r; auto. }
      apply NoDup_Permutation; auto. intros c. rewrite (H1 Hin), (H1' (proj1 Hiff Hin)). apply Hdef.
    + assert (Hn : ~ in_some_range ranges cp).
      { intros (r & Hr & Hc). apply contains_spec in Hc.
        assert (existsb (fun r => r_contains r cp) ranges = true) by (apply existsb_exists; eauto). congruence. }
      rewrite (H2 Hn), H2'; auto. intros Hn'. apply Hn, Hiff, Hn'.
Qed.
Print Assumptions C14_table_and_order.

Example C14_nonvacuous :
  exists t t', compile pop_first sample_ranges = Ok t /\ compile pop_first (rev sample_ranges) = Ok t' /\
    Permutation sample_ranges (rev sample_ranges) /\ sample_ranges <> rev sample_ranges /\
    map (fun r => (r_low r, r_high r)) t = [(48, 50); (50, 51); (51, 52); (52, 58); (58, 70); (80, 95)].
Proof. eexists. eexists. split; [vm_compute; reflexivity|]. split; [vm_compute; reflexivity|].
  split; [apply Permutation_rev|]. split; [discriminate|]. vm_compute; reflexivity. Qed.
