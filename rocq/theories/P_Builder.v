(** Proofs about M_Builder: replace, and the map it maintains. *)
From Coq Require Import List ZArith Lia Bool Arith Sorted.
From Verif Require Import Base Utf8 M_Builder S_Text.
Import ListNotations.
Open Scope Z_scope.

Lemma firstn_S_nth {A} (l : list A) k a :
  nth_error l k = Some a -> firstn (S k) l = firstn k l ++ [a].
Proof.
  revert k. induction l as [|x l IH]; intros [|k] H; simpl in H; try discriminate.
  - now inversion H.
  - rewrite firstn_cons, (IH k H). reflexivity.
Qed.

Lemma repeat_snoc {A} (a : A) n : repeat a n ++ [a] = repeat a (S n).
Proof. induction n; simpl; [reflexivity|]. now rewrite IHn. Qed.

(** The loop of [replace], after [k] iterations. *)
Lemma replace_loop (pre : list nat) (mb me : nat) (l1 : list nat) (b e n : nat) :
  length pre = b -> (b < e)%nat ->
  (forall k, (S k < e - b)%nat -> (k < n)%nat -> (k < length l1)%nat) ->
  foldM (replace_step b e me) (pre ++ mb :: l1) (seq 1 n)
  = Ok (pre ++ mb :: repeat me n ++ skipn (min n (e - b - 1)) l1).
Proof.
  intros Hp Hbe. induction n as [|n IH]; intros Hl.
  - simpl. reflexivity.
  - rewrite seq_S, foldM_app, IH by (intros; apply Hl; lia). cbn [bind foldM].
    unfold replace_step.
    destruct (Nat.ltb_spec (b + (1 + n)) e) as [H|H].
    + pose proof (Hl n ltac:(lia) ltac:(lia)) as Hn.
      replace (min n (e - b - 1)) with n by lia.
      replace (min (S n) (e - b - 1)) with (S n) by lia.
      destruct (nth_error l1 n) as [x|] eqn:E; [|apply nth_error_None in E; lia].
      rewrite (skipn_cons_nth _ _ _ E).
      replace (pre ++ mb :: repeat me n ++ x :: skipn (S n) l1)
        with ((pre ++ mb :: repeat me n) ++ x :: skipn (S n) l1) by (rewrite <- app_assoc; reflexivity).
      replace (b + (1 + n))%nat with (length (pre ++ mb :: repeat me n))
        by (rewrite app_length; cbn [length]; rewrite repeat_length; lia).
      rewrite set_nth_app. cbn [bind]. f_equal. rewrite <- app_assoc. cbn [app].
      f_equal. f_equal. rewrite <- repeat_snoc, <- app_assoc. reflexivity.
    + cbn [bind]. f_equal.
      replace (pre ++ mb :: repeat me n ++ skipn (min n (e - b - 1)) l1)
        with ((pre ++ mb :: repeat me n) ++ skipn (min n (e - b - 1)) l1)
        by (rewrite <- app_assoc; reflexivity).
      rewrite insert_at_app
        by (rewrite app_length; cbn [length]; rewrite repeat_length; lia).
      rewrite <- app_assoc. cbn [app]. f_equal. f_equal.
      rewrite <- repeat_snoc, <- app_assoc. cbn [app]. do 2 f_equal. f_equal. lia.
Qed.

(** Closed form of [replace] with legal arguments and a non-empty string. *)
Lemma replace_closed bd begin end_ s mb me :
  let t := b_mod bd in let m := b_m2o bd in
  let b := Z.to_nat begin in let e := min (Z.to_nat end_) (length t) in
  length m = S (length t) ->
  0 <= begin -> begin < Z.of_nat (length t) -> begin < end_ -> s <> [] ->
  nth_error m b = Some mb -> nth_error m e = Some me ->
  replace bd begin end_ s =
    Ok {| b_orig := b_orig bd;
          b_mod := firstn b t ++ s ++ skipn e t;
          b_m2o := firstn b m ++ mb :: repeat me (length s - 1) ++ skipn e m |}.
Proof.
  intros t m b e Hm Hb0 Hbl Hbe Hs Hmb Hme.
  unfold replace. fold t. fold m. fold b.
  replace (begin <? 0) with false by (symmetry; apply Z.ltb_ge; lia).
  replace (Z.of_nat (length t) <? begin) with false by (symmetry; apply Z.ltb_ge; lia).
  replace (end_ <? begin) with false by (symmetry; apply Z.ltb_ge; lia).
  replace (begin =? end_) with false by (symmetry; apply Z.eqb_neq; lia).
  replace (Z.to_nat (if Z.of_nat (length t) <? end_ then Z.of_nat (length t) else end_)) with e.
  2:{ subst e. destruct (Z.ltb_spec (Z.of_nat (length t)) end_); lia. }
  unfold get. rewrite Hmb, Hme. cbn [bind].
  assert (Hls : (1 <= length s)%nat) by (destruct s; simpl; [congruence|lia]).
  assert (Hbn : (b < e)%nat) by (subst b e; lia).
  assert (Hen : (e <= length t)%nat) by (subst e; lia).
  set (m1 := if (length s <? e - b)%nat then firstn (b + length s) m ++ skipn e m else m).
  assert (H1 : exists l1, m1 = firstn b m ++ mb :: l1 /\
            skipn (min (length s - 1) (e - b - 1)) l1 = skipn e m /\
            (min (length s - 1) (e - b - 1) <= length l1)%nat).
  { subst m1. destruct (Nat.ltb_spec (length s) (e - b)) as [H|H].
    - exists (firstn (length s - 1) (skipn (S b) m) ++ skipn e m). split; [|split].
      + replace (b + length s)%nat with (b + S (length s - 1))%nat by lia.
        rewrite <- (firstn_skipn b m) at 1.
        rewrite firstn_app, firstn_length, firstn_firstn.
        replace (min (b + S (length s - 1)) b) with b by lia.
        replace (b + S (length s - 1) - min b (length m))%nat with (S (length s - 1)) by lia.
        rewrite (skipn_cons_nth _ _ _ Hmb). cbn [firstn]. rewrite <- app_assoc. reflexivity.
      + replace (min (length s - 1) (e - b - 1)) with (length s - 1)%nat by lia.
        rewrite skipn_app, firstn_length, skipn_length.
        replace (length s - 1 - min (length s - 1) (length m - S b))%nat with 0%nat by lia.
        rewrite skipn_all2; [reflexivity|]. rewrite firstn_length, skipn_length. lia.
      + rewrite app_length, firstn_length, !skipn_length. lia.
    - exists (skipn (S b) m). split; [|split].
      + rewrite <- (firstn_skipn b m) at 1. now rewrite (skipn_cons_nth _ _ _ Hmb).
      + rewrite skipn_skipn'. f_equal. lia.
      + rewrite skipn_length. lia. }
  destruct H1 as (l1 & -> & Hsk & Hl1).
  assert (Hfb : length (firstn b m) = b) by (rewrite firstn_length; lia).
  rewrite <- Hfb at 2. rewrite set_nth_app. cbn [bind].
  rewrite replace_loop; auto.
  - cbn [bind]. rewrite Hsk. reflexivity.
  - intros k Hk1 Hk2. lia.
Qed.

Lemma position_map_init (t : text) : position_map (seq 0 (length t + 1)) (length t) (length t).
Proof.
  assert (Hn : forall a n i x, nth_error (seq a n) i = Some x -> x = (a + i)%nat /\ (i < n)%nat).
  { intros a n. revert a. induction n; simpl; intros a i x H; [destruct i; discriminate|].
    destruct i; simpl in H; [inversion H; lia|]. apply IHn in H. lia. }
  assert (Hn2 : forall a n i, (i < n)%nat -> nth_error (seq a n) i = Some (a + i)%nat).
  { intros a n. revert a. induction n; simpl; intros a i H; [lia|].
    destruct i; simpl; [f_equal; lia|]. rewrite IHn by lia. f_equal. lia. }
  repeat split.
  - rewrite seq_length. lia.
  - rewrite Hn2 by lia. reflexivity.
  - rewrite Hn2 by lia. reflexivity.
  - intros i j x y Hij Hi Hj. apply Hn in Hi, Hj. lia.
Qed.

(** One replacement keeps the map well-formed. *)
Lemma position_map_replace m n olen b e k mb me :
  position_map m n olen -> (b < e)%nat -> (e <= n)%nat ->
  nth_error m b = Some mb -> nth_error m e = Some me ->
  position_map (firstn b m ++ mb :: repeat me k ++ skipn e m) (b + S k + (n - e)) olen.
Proof.
  intros (Hl & H0 & Hn & Hmono) Hbe Hen Hmb Hme.
  assert (Hfb : length (firstn b m) = b) by (rewrite firstn_length; lia).
  set (m' := firstn b m ++ mb :: repeat me k ++ skipn e m).
  (* every entry of the new map is an entry of the old one at a controlled index *)
  assert (Hidx : forall i, (i <= b + S k + (n - e))%nat ->
     exists j, (j <= n)%nat /\ nth_error m' i = nth_error m j /\
       ((i <= b)%nat -> j = i) /\ ((b < i)%nat -> (i <= b + k)%nat -> j = e) /\
       ((b + k < i)%nat -> j = (e + (i - (b + S k)))%nat)).
  { intros i Hi. subst m'.
    destruct (lt_eq_lt_dec i b) as [[Hlt|Heq]|Hgt].
    - exists i. repeat split; try lia. rewrite nth_error_app1 by lia. now apply nth_error_firstn'.
    - subst i. exists b. repeat split; try lia. rewrite nth_error_app2 by lia.
      rewrite Hfb, Nat.sub_diag. simpl. now rewrite Hmb.
    - destruct (le_lt_dec i (b + k)) as [Hk|Hk].
      + exists e. repeat split; try lia. rewrite nth_error_app2 by lia. rewrite Hfb.
        destruct (i - b)%nat as [|q] eqn:Eq; [lia|]. simpl.
        rewrite nth_error_app1 by (rewrite repeat_length; lia).
        rewrite nth_error_repeat by lia. now rewrite Hme.
      + exists (e + (i - (b + S k)))%nat. repeat split; try lia.
        rewrite nth_error_app2 by lia. rewrite Hfb.
        destruct (i - b)%nat as [|q] eqn:Eq; [lia|]. simpl.
        rewrite nth_error_app2 by (rewrite repeat_length; lia).
        rewrite repeat_length, nth_error_skipn'. f_equal. lia. }
  repeat split.
  - subst m'. rewrite app_length. cbn [length]. rewrite app_length, repeat_length, skipn_length. lia.
  - destruct (Hidx 0%nat ltac:(lia)) as (j & _ & -> & Hj & _). rewrite Hj by lia. auto.
  - destruct (Hidx (b + S k + (n - e))%nat ltac:(lia)) as (j & _ & -> & _ & _ & Hj).
    rewrite Hj by lia. rewrite <- Hn. f_equal. lia.
  - intros i j x y Hij Hi Hj.
    assert (Hlen : length m' = S (b + S k + (n - e))).
    { subst m'. rewrite app_length. cbn [length]. rewrite app_length, repeat_length, skipn_length. lia. }
    assert ((j < length m')%nat) by (apply nth_error_Some; congruence).
    destruct (Hidx i ltac:(lia)) as (i' & _ & Ei & A1 & A2 & A3).
    destruct (Hidx j ltac:(lia)) as (j' & _ & Ej & B1 & B2 & B3).
    rewrite Ei in Hi. rewrite Ej in Hj.
    apply (Hmono i' j'); auto.
    destruct (le_lt_dec i b); [rewrite A1 by lia|destruct (le_lt_dec i (b + k)); [rewrite A2 by lia|rewrite A3 by lia]];
    (destruct (le_lt_dec j b); [rewrite B1 by lia|destruct (le_lt_dec j (b + k)); [rewrite B2 by lia|rewrite B3 by lia]]); lia.
Qed.

(** Histories of replacements inside the text with non-empty strings. *)
Inductive rewritten (t : text) : builder -> Prop :=
| rw_init : rewritten t (builder_init t)
| rw_replace bd begin end_ s bd' :
    rewritten t bd -> begin < Z.of_nat (length (b_mod bd)) -> s <> [] ->
    replace bd begin end_ s = Ok bd' -> rewritten t bd'.

Definition builder_wf (t : text) (bd : builder) : Prop :=
  b_orig bd = t /\ position_map (b_m2o bd) (length (b_mod bd)) (length t).

(** [replace] succeeds only if the arguments are legal. *)
Lemma replace_ok_args bd begin end_ s bd' :
  replace bd begin end_ s = Ok bd' -> 0 <= begin < end_ /\ begin <= Z.of_nat (length (b_mod bd)).
Proof.
  unfold replace.
  destruct (Z.ltb_spec begin 0); [discriminate|].
  destruct (Z.ltb_spec (Z.of_nat (length (b_mod bd))) begin); [discriminate|].
  destruct (Z.ltb_spec end_ begin); [discriminate|].
  destruct (Z.eqb_spec begin end_); [discriminate|].
  intros _. lia.
Qed.

(** Legal arguments always succeed, with the specified effect. *)
Lemma replace_legal t bd begin end_ s :
  builder_wf t bd -> 0 <= begin < end_ -> begin < Z.of_nat (length (b_mod bd)) -> s <> [] ->
  exists mb me,
    let b := Z.to_nat begin in let e := min (Z.to_nat end_) (length (b_mod bd)) in
    nth_error (b_m2o bd) b = Some mb /\ nth_error (b_m2o bd) e = Some me /\
    replace bd begin end_ s =
    Ok {| b_orig := t;
          b_mod := firstn b (b_mod bd) ++ s ++ skipn e (b_mod bd);
          b_m2o := firstn b (b_m2o bd) ++ mb :: repeat me (length s - 1) ++ skipn e (b_m2o bd) |}.
Proof.
  intros (Ho & Hpm) Hbe Hbl Hs.
  pose proof Hpm as (Hl & _).
  set (b := Z.to_nat begin). set (e := min (Z.to_nat end_) (length (b_mod bd))).
  destruct (nth_error (b_m2o bd) b) as [mb|] eqn:Emb; [|apply nth_error_None in Emb; lia].
  destruct (nth_error (b_m2o bd) e) as [me|] eqn:Eme; [|apply nth_error_None in Eme; lia].
  exists mb, me. cbn zeta. repeat split; auto.
  rewrite <- Ho. apply replace_closed; auto; lia.
Qed.

Lemma replace_wf t bd begin end_ s bd' :
  builder_wf t bd -> begin < Z.of_nat (length (b_mod bd)) -> s <> [] ->
  replace bd begin end_ s = Ok bd' -> builder_wf t bd'.
Proof.
  intros Hwf Hbl Hs H.
  pose proof (replace_ok_args _ _ _ _ _ H) as (Hbe & _).
  destruct (replace_legal t bd begin end_ s Hwf Hbe Hbl Hs) as (mb & me & Emb & Eme & E).
  rewrite E in H. injection H as <-. split; [reflexivity|]. cbn [b_m2o b_mod].
  destruct Hwf as (_ & Hpm).
  set (b := Z.to_nat begin) in *. set (e := min (Z.to_nat end_) (length (b_mod bd))) in *.
  replace (length (firstn b (b_mod bd) ++ s ++ skipn e (b_mod bd)))
    with (b + S (length s - 1) + (length (b_mod bd) - e))%nat.
  - apply position_map_replace; auto; lia.
  - rewrite !app_length, firstn_length, skipn_length.
    destruct s; [congruence|]. cbn [length]. lia.
Qed.

Lemma rewritten_wf t bd : rewritten t bd -> builder_wf t bd.
Proof.
  induction 1.
  - split; [reflexivity|]. apply position_map_init.
  - eapply replace_wf; eauto.
Qed.
