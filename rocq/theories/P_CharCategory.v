(** Proofs for the compiled character category table. *)
From Coq Require Import List ZArith Lia Bool Arith Permutation Sorted.
From Verif Require Import Base M_Builder M_CharCategory P_InputText.
Import ListNotations.
Open Scope Z_scope.

(** What [queue.PriorityQueue.get] guarantees. *)
Definition pop_ok (pop : list range -> option (range * list range)) : Prop :=
  (forall q, q <> [] -> exists x q', pop q = Some (x, q')) /\
  (forall q x q', pop q = Some (x, q') ->
     Permutation q (x :: q') /\ forall y, In y q' -> r_high x <= r_high y).

Lemma contains_spec r cp : r_contains r cp = true <-> r_low r <= cp < r_high r.
Proof. unfold r_contains. rewrite andb_true_iff, Z.leb_le, Z.ltb_lt. tauto. Qed.

(** ** Sorting *)

Lemma insert_by_perm key x l : Permutation (x :: l) (insert_by key x l).
Proof.
  induction l as [|y l IH]; simpl; auto.
  destruct (key x <=? key y); auto.
  rewrite perm_swap. now constructor.
Qed.

Lemma sort_by_perm key l : Permutation l (sort_by key l).
Proof.
  induction l; simpl; auto. rewrite <- insert_by_perm. now constructor.
Qed.

Lemma insert_by_sorted key x l :
  StronglySorted (fun a b => key a <= key b) l ->
  StronglySorted (fun a b => key a <= key b) (insert_by key x l).
Proof.
  induction 1 as [|y l Hs IH Hf]; simpl.
  - repeat constructor.
  - destruct (Z.leb_spec (key x) (key y)).
    + constructor; [constructor; auto|]. constructor; auto.
      eapply Forall_impl; [|exact Hf]. simpl. intros; lia.
    + constructor; auto.
      eapply Permutation_Forall; [apply insert_by_perm|]. constructor; auto. lia.
Qed.

Lemma sort_by_sorted key l : StronglySorted (fun a b => key a <= key b) (sort_by key l).
Proof. induction l; simpl; [constructor|]. now apply insert_by_sorted. Qed.

(** ** Removing categories *)

Lemma cat_eqb_eq a b : cat_eqb a b = true <-> a = b.
Proof. unfold cat_eqb. destruct (cat_eq_dec a b); split; congruence. Qed.

Lemma remove_one_perm c l : In c l -> exists l', remove_one c l = Ok l' /\ Permutation l (c :: l').
Proof.
  induction l as [|x l IH]; simpl; [tauto|].
  intros H. destruct (cat_eqb c x) eqn:E.
  - apply cat_eqb_eq in E. subst. eauto.
  - destruct H as [->|H]; [rewrite (proj2 (cat_eqb_eq c c) eq_refl) in E; discriminate|].
    destruct (IH H) as (l' & -> & Hp). exists (x :: l'). split; auto.
    rewrite Hp. apply perm_swap.
Qed.

Lemma remove_all_perm cs l rest :
  Permutation l (cs ++ rest) ->
  exists l', foldM (fun s c => remove_one c s) l cs = Ok l' /\ Permutation l' rest.
Proof.
  revert l. induction cs as [|c cs IH]; simpl; intros l Hp.
  - eauto.
  - destruct (remove_one_perm c l) as (l1 & -> & Hp1).
    { eapply Permutation_in; [symmetry; exact Hp|]. now left. }
    cbn [bind]. apply IH. apply Permutation_cons_inv with c. now rewrite <- Hp1.
Qed.

(** ** The sweep *)

Section sweep.
Variable pop : list range -> option (range * list range).
Hypothesis Hpop : pop_ok pop.
Variable ALL : list range.
Hypothesis ALL_ok : Forall (fun r => r_low r < r_high r) ALL.

(** [o] carries exactly the categories of the ranges that cover each of its points. *)
Definition good_range (o : range) : Prop :=
  NoDup (r_cats o) /\
  forall cp, r_low o <= cp < r_high o ->
    (exists r, In r ALL /\ r_low r <= cp < r_high r) /\
    forall c, In c (r_cats o) <-> exists r, In r ALL /\ r_low r <= cp < r_high r /\ In c (r_cats r).

Definition covered (out : list range) (cp : Z) : Prop := exists o, In o out /\ r_low o <= cp < r_high o.

(** [B]: everything finished lies below, everything waiting above; it is the
    pivot as long as some range is open. *)
Record inv (left right : list range) (states : list cat) (B : Z) (out : list range) (done : list range) : Prop := {
  inv_perm : Permutation ALL (done ++ left ++ right);
  inv_done : forall r, In r done -> r_high r <= B;
  inv_left : forall r, In r left -> r_low r <= B <= r_high r;
  inv_right : forall r, In r right -> B <= r_low r;
  inv_right_sorted : StronglySorted (fun a b => r_low a <= r_low b) right;
  inv_states : Permutation states (concat (map r_cats left));
  inv_out_good : Forall good_range out;
  inv_out_wf : forall o, In o out -> r_low o <= r_high o <= B;
  inv_out_sorted : StronglySorted (fun a b => r_high a <= r_low b) out;
  inv_cov : forall cp r, In r (done ++ left) -> r_low r <= cp < r_high r -> cp < B -> covered out cp;
}.
Arguments inv_perm {left right states B out done} _.
Arguments inv_done {left right states B out done} _.
Arguments inv_left {left right states B out done} _.
Arguments inv_right {left right states B out done} _.
Arguments inv_right_sorted {left right states B out done} _.
Arguments inv_states {left right states B out done} _.
Arguments inv_out_good {left right states B out done} _.
Arguments inv_out_wf {left right states B out done} _.
Arguments inv_out_sorted {left right states B out done} _.
Arguments inv_cov {left right states B out done} _.

Lemma states_mem left states c :
  Permutation states (concat (map r_cats left)) ->
  In c states <-> exists r, In r left /\ In c (r_cats r).
Proof.
  intros Hp. split.
  - intros H. eapply Permutation_in in H; [|exact Hp]. apply in_concat in H as (x & Hx & Hc).
    apply in_map_iff in Hx as (r & <- & Hr). eauto.
  - intros (r & Hr & Hc). eapply Permutation_in; [symmetry; exact Hp|].
    apply in_concat. exists (r_cats r). split; auto. now apply in_map.
Qed.

(** A range from the pivot to [e] with the current states is good when [e] is at
    most every high on the left and every low on the right. *)
Lemma good_step left right states B out done e :
  inv left right states B out done -> left <> [] ->
  (forall r, In r left -> e <= r_high r) -> (forall r, In r right -> e <= r_low r) ->
  good_range (Range B e (to_set states)).
Proof.
  intros I Hne Hl Hr. split; cbn [r_cats r_low r_high].
  - apply NoDup_nodup.
  - intros cp Hcp. split.
    + destruct left as [|x left]; [congruence|]. exists x.
      split. { eapply Permutation_in; [symmetry; apply (inv_perm I)|].
               apply in_or_app. right. now left. }
      pose proof (inv_left I x (or_introl eq_refl)).
      specialize (Hl x (or_introl eq_refl)). lia.
    + intros c. unfold to_set. rewrite nodup_In.
      rewrite (states_mem left) by apply (inv_states I).
      split.
      * intros (r & Hin & Hc). exists r. split; [|split; auto].
        -- eapply Permutation_in; [symmetry; apply (inv_perm I)|].
           apply in_or_app. right. apply in_or_app. now left.
        -- pose proof (inv_left I r Hin). specialize (Hl r Hin). lia.
      * intros (r & Hin & Hcov & Hc). exists r. split; auto.
        eapply Permutation_in in Hin; [|apply (inv_perm I)].
        apply in_app_or in Hin as [Hin|Hin].
        { pose proof (inv_done I r Hin). lia. }
        apply in_app_or in Hin as [Hin|Hin]; auto.
        specialize (Hr r Hin). lia.
Qed.

Lemma sorted_snoc {A} (R : A -> A -> Prop) l x :
  StronglySorted R l -> (forall y, In y l -> R y x) -> StronglySorted R (l ++ [x]).
Proof.
  induction 1 as [|y l Hs IH Hf]; simpl; intros H.
  - repeat constructor.
  - constructor; [apply IH; auto|]. apply Forall_app. split; auto.
Qed.

Lemma covered_snoc out o cp : covered out cp -> covered (out ++ [o]) cp.
Proof. intros (x & Hx & H). exists x. split; auto. apply in_or_app. auto. Qed.

(** Emitting [B, e) and moving the bound to [e]; what happens to the open ranges
    is the caller's business. *)
Lemma emit_cov left right states B out done e cp r :
  inv left right states B out done -> left <> [] ->
  In r (done ++ left) -> r_low r <= cp < r_high r -> cp < e ->
  covered (out ++ [Range B e (to_set states)]) cp.
Proof.
  intros I Hne Hr Hc He. destruct (Z.lt_ge_cases cp B).
  - apply covered_snoc. eapply (inv_cov I); eauto.
  - exists (Range B e (to_set states)). split; [apply in_or_app; right; now left|].
    cbn [r_low r_high]. lia.
Qed.

Lemma sweep_spec fuel left right states pivot B out done :
  inv left right states B out done -> (left <> [] -> pivot = B) ->
  (length left + 2 * length right < fuel)%nat ->
  exists out', sweep pop fuel left right states pivot out = Ok out' /\
    Forall good_range out' /\ Forall (fun o => r_low o <= r_high o) out' /\
    StronglySorted (fun a b => r_high a <= r_low b) out' /\
    (forall cp r, In r ALL -> r_low r <= cp < r_high r -> covered out' cp).
Proof.
  revert left right states pivot B out done.
  induction fuel as [|f IH]; intros left right states pivot B out done I Hpv Hf; [lia|].
  cbn [sweep].
  destruct left as [|l0 left0] eqn:El.
  - destruct right as [|r rs] eqn:Er.
    + (* finished *)
      exists out. split; [reflexivity|]. split; [apply (inv_out_good I)|]. split.
      { apply Forall_forall. intros o Ho. pose proof (inv_out_wf I o Ho). lia. }
      split; [apply (inv_out_sorted I)|].
      intros cp r Hr Hcov.
      assert (Hd : In r done).
      { eapply Permutation_in in Hr; [|apply (inv_perm I)]. simpl in Hr. now rewrite app_nil_r in Hr. }
      apply (inv_cov I cp r); auto.
      * apply in_or_app; auto.
      * pose proof (inv_done I r Hd). lia.
    + (* take the next range *)
      assert (Hr : In r ALL).
      { eapply Permutation_in; [symmetry; apply (inv_perm I)|]. simpl.
        apply in_or_app. right. now left. }
      assert (Hlh : r_low r < r_high r) by (eapply Forall_forall in ALL_ok; eauto).
      pose proof (inv_right I r (or_introl eq_refl)) as HB.
      apply (IH [r] rs (states ++ r_cats r) (r_low r) (r_low r) out done); auto.
      2:{ simpl in *. lia. }
      constructor.
      * exact (inv_perm I).
      * intros x Hx. pose proof (inv_done I x Hx). lia.
      * intros x [<-|[]]. lia.
      * intros x Hx. pose proof (inv_right_sorted I) as Hs. inversion Hs; subst.
        eapply Forall_forall in H2; eauto.
      * pose proof (inv_right_sorted I) as Hs. now inversion Hs.
      * simpl. rewrite app_nil_r.
        pose proof (inv_states I) as Hst. simpl in Hst.
        apply Permutation_sym, Permutation_nil in Hst. now rewrite Hst.
      * apply (inv_out_good I).
      * intros o Ho. pose proof (inv_out_wf I o Ho). lia.
      * apply (inv_out_sorted I).
      * intros cp x Hx Hcov Hlt. apply in_app_or in Hx as [Hx|[<-|[]]]; [|lia].
        apply (inv_cov I cp x); auto.
        -- apply in_or_app; auto.
        -- pose proof (inv_done I x Hx). lia.
  - rewrite <- El in *. assert (Hne : left <> []) by (rewrite El; discriminate).
    specialize (Hpv Hne). subst pivot. clear l0 left0 El.
    destruct Hpop as (Hpop1 & Hpop2).
    destruct (Hpop1 left Hne) as (l & left' & Ep). rewrite Ep.
    destruct (Hpop2 _ _ _ Ep) as (Hperm & Hmin).
    assert (Hlin : In l left) by (eapply Permutation_in; [symmetry; exact Hperm|now left]).
    pose proof (inv_left I l Hlin) as Hl.
    assert (Hmin' : forall x, In x left -> r_high l <= r_high x).
    { intros x Hx. eapply Permutation_in in Hx; [|exact Hperm]. destruct Hx as [<-|Hx]; [lia|auto]. }
    assert (Hlen : length left = S (length left')) by (rewrite (Permutation_length Hperm); reflexivity).
    (* closing the range [l] *)
    assert (Hclose : (forall x, In x right -> r_high l <= r_low x) ->
      exists states', foldM (fun s c => remove_one c s) states (r_cats l) = Ok states' /\
        inv left' right states' (r_high l) (out ++ [Range B (r_high l) (to_set states)]) (l :: done)).
    { intros Hrt.
      destruct (remove_all_perm (r_cats l) states (concat (map r_cats left'))) as (states' & Es & Hs').
      { rewrite (inv_states I).
        rewrite <- flat_map_concat_map, <- flat_map_concat_map.
        change (r_cats l ++ flat_map r_cats left') with (flat_map r_cats (l :: left')).
        now apply Permutation_flat_map. }
      exists states'. split; [exact Es|].
      constructor.
      - rewrite (inv_perm I). rewrite Hperm. simpl. symmetry. apply Permutation_middle.
      - intros x [<-|Hx]; [lia|]. pose proof (inv_done I x Hx). lia.
      - intros x Hx.
        assert (Hxl : In x left) by (eapply Permutation_in; [symmetry; exact Hperm|now right]).
        pose proof (inv_left I x Hxl). specialize (Hmin x Hx). lia.
      - intros x Hx. auto.
      - apply (inv_right_sorted I).
      - exact Hs'.
      - apply Forall_app. split; [apply (inv_out_good I)|]. constructor; [|constructor].
        eapply good_step; eauto.
      - intros o Ho. apply in_app_or in Ho as [Ho|[<-|[]]]; cbn [r_low r_high].
        + pose proof (inv_out_wf I o Ho). lia.
        + lia.
      - apply sorted_snoc; [apply (inv_out_sorted I)|]. intros o Ho. cbn [r_low].
        pose proof (inv_out_wf I o Ho). lia.
      - intros cp x Hx Hcov Hlt. eapply emit_cov; eauto.
        apply in_app_or in Hx as [[<-|Hx]|Hx]; apply in_or_app; auto.
        right. eapply Permutation_in; [symmetry; exact Hperm|now right]. }
    destruct left as [|l0 left0] eqn:El; [congruence|]. rewrite <- El in *.
    destruct right as [|r rs] eqn:Er.
    + destruct Hclose as (states' & Es & I'); [intros x []|].
      rewrite Es. cbn [bind]. eapply IH; eauto. simpl. lia.
    + destruct (Z.leb_spec (r_high l) (r_low r)) as [Hle|Hgt].
      * assert (Hrs : forall x, In x (r :: rs) -> r_high l <= r_low x).
        { intros x [<-|Hx]; auto. pose proof (inv_right_sorted I) as Hs. inversion Hs; subst.
          eapply Forall_forall in H2; eauto. lia. }
        destruct (Hclose Hrs) as (states' & Es & I').
        rewrite Es. cbn [bind]. eapply IH; eauto. simpl in *. lia.
      * (* open the range [r] *)
        assert (Hr : In r ALL).
        { eapply Permutation_in; [symmetry; apply (inv_perm I)|].
          apply in_or_app. right. apply in_or_app. right. now left. }
        assert (Hlh : r_low r < r_high r) by (eapply Forall_forall in ALL_ok; eauto).
        pose proof (inv_right I r (or_introl eq_refl)) as HB.
        assert (Hrs : forall x, In x rs -> r_low r <= r_low x).
        { intros x Hx. pose proof (inv_right_sorted I) as Hs. inversion Hs; subst.
          eapply Forall_forall in H2; eauto. }
        apply (IH (l :: r :: left') rs (states ++ r_cats r) (r_low r) (r_low r)
                 (out ++ [Range B (r_low r) (to_set states)]) done); auto.
        2:{ simpl in *. lia. }
        assert (Hp2 : Permutation (left ++ [r]) (l :: r :: left')).
        { rewrite Hperm. simpl. constructor. rewrite Permutation_app_comm. reflexivity. }
        constructor.
        -- rewrite (inv_perm I). apply Permutation_app_head.
           change (r :: rs) with ([r] ++ rs). rewrite app_assoc, Hp2. reflexivity.
        -- intros x Hx. pose proof (inv_done I x Hx). lia.
        -- intros x Hx.
           assert (Hx' : In x (left ++ [r])) by (eapply Permutation_in; [symmetry; exact Hp2|exact Hx]).
           apply in_app_or in Hx' as [Hx'|[<-|[]]]; [|lia].
           pose proof (inv_left I x Hx'). specialize (Hmin' x Hx'). lia.
        -- auto.
        -- pose proof (inv_right_sorted I) as Hs. now inversion Hs.
        -- rewrite <- flat_map_concat_map.
           rewrite <- (Permutation_flat_map r_cats Hp2), flat_map_app. simpl. rewrite app_nil_r.
           rewrite flat_map_concat_map. apply Permutation_app_tail. apply (inv_states I).
        -- apply Forall_app. split; [apply (inv_out_good I)|]. constructor; [|constructor].
           eapply good_step; eauto.
           ++ intros x Hx. specialize (Hmin' x Hx). lia.
           ++ intros x [<-|Hx]; [lia|auto].
        -- intros o Ho. apply in_app_or in Ho as [Ho|[<-|[]]]; cbn [r_low r_high].
           ++ pose proof (inv_out_wf I o Ho). lia.
           ++ lia.
        -- apply sorted_snoc; [apply (inv_out_sorted I)|]. intros o Ho. cbn [r_low].
           pose proof (inv_out_wf I o Ho). lia.
        -- intros cp x Hx Hcov Hlt.
           assert (Hx' : In x (done ++ left ++ [r])).
           { eapply Permutation_in; [|exact Hx]. apply Permutation_app_head. now symmetry. }
           apply in_app_or in Hx' as [Hx'|Hx'].
           ++ eapply emit_cov; eauto. apply in_or_app; auto.
           ++ apply in_app_or in Hx' as [Hx'|[<-|[]]]; [|lia].
              eapply emit_cov; eauto. apply in_or_app; auto.
Qed.
End sweep.

(** ** Merging *)

Lemma set_eqb_spec a b : set_eqb a b = true -> forall c, In c a <-> In c b.
Proof.
  unfold set_eqb. rewrite andb_true_iff, !forallb_forall. intros (H1 & H2) c.
  split; intros H; [apply H1 in H|apply H2 in H]; now apply cat_mem_In in H.
Qed.

Definition table_ok (l : list range) : Prop :=
  Forall (fun o => r_low o <= r_high o) l /\ StronglySorted (fun a b => r_high a <= r_low b) l.

Lemma merge_head cur l : exists h o, merge cur l = Range (r_low cur) h (r_cats cur) :: o.
Proof.
  revert cur. induction l as [|r rs IH]; intros cur; simpl.
  - destruct cur. eauto.
  - destruct (_ && _).
    + destruct (IH (Range (r_low cur) (r_high r) (r_cats cur))) as (h & o & E). eauto.
    + destruct cur. eauto.
Qed.

Lemma merge_ok ALL l : forall cur, table_ok (cur :: l) -> Forall (good_range ALL) (cur :: l) ->
  let m := merge cur l in
  table_ok m /\ Forall (good_range ALL) m /\
  (forall cp, covered (cur :: l) cp -> covered m cp) /\
  (forall x, In x m -> r_low cur <= r_low x).
Proof.
  induction l as [|r rs IH]; intros cur (Hw & Hs) Hg m.
  - subst m. simpl. repeat split; auto. intros x [<-|[]]. lia.
  - inversion Hw as [|? ? Hw1 Hw2]; subst. inversion Hs as [|? ? Hs2 Hf]; subst.
    inversion Hg as [|? ? Hg1 Hg2]; subst. inversion Hw2 as [|? ? Hw3 Hw4]; subst.
    inversion Hg2 as [|? ? Hg3 Hg4]; subst. inversion Hs2 as [|? ? Hs3 Hf2]; subst.
    inversion Hf as [|? ? Hf3 Hf4]; subst.
    subst m. cbn [merge].
    destruct (_ && _) eqn:E.
    + apply andb_true_iff in E as (E1 & E2). apply Z.eqb_eq in E1.
      pose proof (set_eqb_spec _ _ E2) as Heq.
      destruct (IH (Range (r_low cur) (r_high r) (r_cats cur))) as (A & B & C & D).
      * split; constructor; auto; cbn [r_low r_high]; lia.
      * constructor; auto. destruct Hg1 as (N1 & G1), Hg3 as (N3 & G3).
        split; cbn [r_cats r_low r_high]; auto.
        intros cp Hcp. destruct (Z.lt_ge_cases cp (r_high cur)).
        -- apply G1. lia.
        -- destruct (G3 cp) as (X & Y); [lia|]. split; auto.
           intros c. rewrite <- Heq. apply Y.
      * split; [exact A|]. split; [exact B|]. split.
        -- intros cp (o & [<-|[<-|Ho]] & Hc); apply C.
           ++ eexists. split; [now left|]. cbn [r_low r_high]. lia.
           ++ eexists. split; [now left|]. cbn [r_low r_high]. lia.
           ++ exists o. split; auto. now right.
        -- exact D.
    + destruct (IH r) as (A & B & C & D); [split; auto|auto|].
      destruct A as (A1 & A2).
      split; [|split; [|split]].
      * split; constructor; auto.
        apply Forall_forall. intros x Hx. specialize (D x Hx). lia.
      * constructor; auto.
      * intros cp (o & [<-|Ho] & Hc).
        -- exists cur. split; [now left|auto].
        -- destruct (C cp) as (x & Hx & Hxc); [exists o; auto|]. exists x. split; [now right|auto].
      * intros x [<-|Hx]; [lia|]. specialize (D x Hx). lia.
Qed.

(** ** The whole compilation *)
Theorem compile_spec pop (Hpop : pop_ok pop) ALL :
  Forall (fun r => r_low r < r_high r) ALL -> ALL <> [] ->
  exists l, compile pop ALL = Ok l /\ l <> [] /\ table_ok l /\ Forall (good_range ALL) l /\
    (forall cp r, In r ALL -> r_low r <= cp < r_high r -> covered l cp).
Proof.
  intros Hok Hne. unfold compile.
  set (sorted := sort_by r_low (sort_by r_high ALL)).
  assert (Hp : Permutation ALL sorted).
  { unfold sorted. rewrite (sort_by_perm r_high ALL) at 1. apply sort_by_perm. }
  assert (HB : exists B, forall r, In r sorted -> B <= r_low r).
  { clear. induction sorted as [|x l (B & IH)]; [exists 0; intros r []|].
    exists (Z.min B (r_low x)). intros r [<-|Hr]; [lia|]. specialize (IH r Hr). lia. }
  destruct HB as (B & HB).
  destruct (sweep_spec pop Hpop ALL Hok (2 * length ALL + 1) [] sorted [] 0 B [] []) as
    (out & E & G & W & S & C).
  - constructor; simpl; auto; try constructor; try tauto.
    apply sort_by_sorted.
  - congruence.
  - rewrite <- (Permutation_length Hp). simpl. lia.
  - rewrite E. cbn [bind]. destruct out as [|o os].
    + exfalso. destruct ALL as [|r rs]; [congruence|].
      inversion Hok; subst. destruct (C (r_low r) r) as (x & [] & _); [now left|lia].
    + destruct (merge_ok ALL os o) as (A1 & A2 & A3 & _); [split; auto|auto|].
      exists (merge o os). split; auto. split.
      { destruct (merge_head o os) as (h & t & ->). discriminate. }
      split; auto. split; auto. intros cp r Hr Hc. apply A3. eauto.
Qed.

(** ** The binary search *)

Lemma sorted_get (l : list range) i j a b :
  StronglySorted (fun a b => r_high a <= r_low b) l ->
  get l i = Ok a -> get l j = Ok b -> (i < j)%nat -> r_high a <= r_low b.
Proof.
  rewrite !get_ok. intros Hs. revert i j. induction Hs as [|x l Hs IH Hf]; intros [|i] [|j]; simpl; intros Ha Hb Hij; try discriminate; try lia.
  - injection Ha as ->. eapply Forall_forall in Hf; [exact Hf|]. eapply nth_error_In; eauto.
  - eapply IH; eauto. lia.
Qed.

Lemma search_spec l cp : table_ok l -> forall fuel b e,
  (b < e <= length l)%nat -> (e - b < fuel)%nat ->
  (forall k o, get l k = Ok o -> r_low o <= cp < r_high o -> (b <= k < e)%nat) ->
  exists cs, search fuel l cp b e ((b + e) / 2)%nat = Ok cs /\
    ((exists o, In o l /\ r_low o <= cp < r_high o /\ cs = r_cats o) \/
     (cs = [DEFAULT] /\ ~ covered l cp)).
Proof.
  intros (Hw & Hs). induction fuel as [|f IH]; intros b e Hbe Hf Hk; [lia|].
  cbn [search].
  set (p := ((b + e) / 2)%nat).
  assert (Hp : (b <= p < e)%nat).
  { unfold p. split; [apply Nat.div_le_lower_bound; lia|apply Nat.div_lt_upper_bound; lia]. }
  assert ((p <? length l)%nat = true) as -> by (apply Nat.ltb_lt; lia).
  destruct (get_lt l p) as (r & Er); [lia|]. rewrite Er. cbn [bind].
  assert (Hrw : r_low r <= r_high r).
  { eapply Forall_forall in Hw; [exact Hw|]. apply get_ok in Er. eapply nth_error_In; eauto. }
  destruct (r_contains r cp) eqn:Ec.
  - apply contains_spec in Ec. exists (r_cats r). split; auto. left. exists r.
    split; auto. apply get_ok in Er. eapply nth_error_In; eauto.
  - assert (Hnc : ~ (r_low r <= cp < r_high r)).
    { intros H. apply contains_spec in H. congruence. }
    destruct (r_lower r cp) eqn:El; unfold r_lower in El.
    + apply Z.leb_le in El.
      assert (Hk' : forall k o, get l k = Ok o -> r_low o <= cp < r_high o -> (p < k < e)%nat).
      { intros k o Eo Ho. specialize (Hk k o Eo Ho). split; [|lia].
        destruct (lt_eq_lt_dec k p) as [[H|H]|H]; auto; exfalso.
        - pose proof (sorted_get _ _ _ _ _ Hs Eo Er H). lia.
        - subst k. rewrite Er in Eo. injection Eo as <-. lia. }
      destruct (Nat.eqb_spec ((p + e) / 2) p) as [E|E].
      * exists [DEFAULT]. split; auto. right. split; auto.
        intros (o & Ho & Hc). apply In_nth_error in Ho as (k & Hko). apply get_ok in Hko.
        specialize (Hk' k o Hko Hc).
        assert ((p + 2 <= e)%nat) by lia.
        assert ((S p <= (p + e) / 2)%nat) by (apply Nat.div_le_lower_bound; lia). lia.
      * assert (p <> b).
        { intros Hpb. apply E. rewrite Hpb at 1. reflexivity. }
        apply IH; try lia. intros k o Eo Ho. specialize (Hk' k o Eo Ho). lia.
    + apply Z.leb_gt in El.
      assert (Hk' : forall k o, get l k = Ok o -> r_low o <= cp < r_high o -> (b <= k < p)%nat).
      { intros k o Eo Ho. specialize (Hk k o Eo Ho). split; [lia|].
        destruct (lt_eq_lt_dec k p) as [[H|H]|H]; auto; exfalso.
        - subst k. rewrite Er in Eo. injection Eo as <-. lia.
        - pose proof (sorted_get _ _ _ _ _ Hs Er Eo H). lia. }
      destruct (Nat.eqb_spec ((b + p) / 2) p) as [E|E].
      * exists [DEFAULT]. split; auto. right. split; auto.
        intros (o & Ho & Hc). apply In_nth_error in Ho as (k & Hko). apply get_ok in Hko.
        specialize (Hk' k o Hko Hc).
        assert (((b + p) / 2 < p)%nat) by (apply Nat.div_lt_upper_bound; lia). lia.
      * destruct (Nat.eq_dec b p) as [Hb|Hb].
        { exfalso. apply E. rewrite Hb. replace (p + p)%nat with (p * 2)%nat by lia. now apply Nat.div_mul. }
        apply IH; try lia. intros k o Eo Ho. specialize (Hk' k o Eo Ho). lia.
Qed.

Lemma get_category_types_spec l cp : table_ok l ->
  exists cs, get_category_types l cp = Ok cs /\
    ((exists o, In o l /\ r_low o <= cp < r_high o /\ cs = r_cats o) \/
     (cs = [DEFAULT] /\ ~ covered l cp)).
Proof.
  intros H. unfold get_category_types. destruct l as [|r l'] eqn:E.
  - simpl. exists [DEFAULT]. split; auto. right. split; auto. intros (o & [] & _).
  - rewrite <- E in *. assert (0 < length l)%nat by (rewrite E; simpl; lia).
    change (length l / 2)%nat with ((0 + length l) / 2)%nat.
    apply search_spec; auto; try lia. intros k o Ek _. apply get_ok_lt in Ek. lia.
Qed.
