(** Proofs about the accessors of the built input text. *)
From Coq Require Import List ZArith Lia Bool Arith Sorted.
From Verif Require Import Base Utf8 M_Builder M_InputText S_Text P_Builder P_InputText.
Import ListNotations.
Open Scope nat_scope.

Section built.
Context {t orig : text} {m2o : list nat} {cats : list (list cat)} {it : input_text}.
Context (B : built t orig m2o cats it).

Lemma len_bytes : char_start t (length t) = length (it_bytes it).
Proof. apply char_start_all; auto. exact (bt_enc B). Qed.

Lemma in_char_lt p k : in_char t p k -> p < length (it_bytes it).
Proof.
  intros (Hk & _ & Hp). rewrite <- len_bytes.
  pose proof (char_start_mono t (S k) (length t) ltac:(lia)). lia.
Qed.

Lemma byte_cases p : p <= length (it_bytes it) ->
  (exists k, in_char t p k) \/ p = length (it_bytes it).
Proof.
  intros H. destruct (Nat.eq_dec p (length (it_bytes it))); auto.
  left. eapply in_char_exists; [exact (bt_enc B)|lia].
Qed.

Lemma bi_start k : k <= length t -> nth_error (it_byte_indexes it) (char_start t k) = Some k.
Proof.
  intros H. destruct (Nat.eq_dec k (length t)) as [->|].
  - rewrite len_bytes. exact (bt_bi_end B).
  - apply (bt_bi B). apply in_char_start. lia.
Qed.

Lemma off_start k : k <= length t -> nth_error (it_offsets it) (char_start t k) = nth_error m2o k.
Proof.
  intros H. destruct (Nat.eq_dec k (length t)) as [->|].
  - rewrite len_bytes. exact (bt_off_end B).
  - apply (bt_off B). apply in_char_start. lia.
Qed.

(** Character position of a byte position; the end counts as position [length t]. *)
Definition char_pos (p k : nat) : Prop :=
  in_char t p k \/ (p = length (it_bytes it) /\ k = length t).

Lemma char_pos_bi p k : char_pos p k -> nth_error (it_byte_indexes it) p = Some k.
Proof. intros [H|[-> ->]]; [now apply (bt_bi B)|exact (bt_bi_end B)]. Qed.

Lemma char_pos_exists p : p <= length (it_bytes it) -> exists k, char_pos p k.
Proof. intros H. destruct (byte_cases p H) as [(k & Hk)|Hk]; [exists k; now left|exists (length t); now right]. Qed.

Lemma char_pos_mono p q i j : p <= q -> char_pos p i -> char_pos q j -> i <= j.
Proof.
  intros Hpq [Hi|[-> ->]] [Hj|[-> ->]]; auto.
  - destruct (le_lt_dec i j) as [|Hlt]; auto.
    destruct Hi as (_ & Hi & _), Hj as (_ & _ & Hj).
    pose proof (char_start_mono t (S j) i Hlt). lia.
  - destruct Hi; lia.
  - apply in_char_lt in Hj. lia.
Qed.

Lemma off_char_pos p k : char_pos p k -> nth_error (it_offsets it) p = nth_error m2o k.
Proof. intros [H|[-> ->]]; [now apply (bt_off B)|exact (bt_off_end B)]. Qed.

(** ** Substrings *)

Lemma slice_encode i j : i <= j -> j <= length t ->
  encode (slice t i j) = Ok (slice (it_bytes it) (char_start t i) (char_start t j)).
Proof.
  intros Hij Hj.
  pose proof (bt_enc B) as He.
  assert (E1 : t = firstn i t ++ slice t i j ++ skipn j t).
  { rewrite app_assoc, firstn_skipn_slice by lia. symmetry. apply firstn_skipn. }
  rewrite E1 in He.
  apply encode_app_inv in He as (b1 & b2' & H1 & H2 & Hb).
  apply encode_app_inv in H2 as (b2 & b3 & H2 & H3 & ->).
  assert (L1 : length b1 = char_start t i).
  { rewrite <- (char_start_all _ (length (firstn i t)) _ H1) by lia.
    unfold char_start. rewrite firstn_all. reflexivity. }
  assert (L2 : length (b1 ++ b2) = char_start t j).
  { assert (H12 : encode (firstn j t) = Ok (b1 ++ b2)).
    { rewrite <- (firstn_skipn_slice t i j) by lia. now apply encode_app. }
    rewrite <- (char_start_all _ (length (firstn j t)) _ H12) by lia.
    unfold char_start. rewrite firstn_all. reflexivity. }
  rewrite H2. f_equal. rewrite Hb. unfold slice.
  rewrite app_assoc, firstn_app, <- L2, Nat.sub_diag, firstn_all. simpl. rewrite app_nil_r.
  rewrite <- L1, skipn_app, skipn_all, Nat.sub_diag. reflexivity.
Qed.

Lemma substring_spec i j : i <= j -> j <= length t ->
  get_substring it (Z.of_nat (char_start t i)) (Z.of_nat (char_start t j)) = Ok (slice t i j).
Proof.
  intros Hij Hj. unfold get_substring.
  pose proof (char_start_mono t i j Hij). pose proof (char_start_mono t j (length t) Hj).
  pose proof len_bytes.
  destruct (Z.ltb_spec (Z.of_nat (char_start t i)) 0); [lia|].
  destruct (Z.ltb_spec (Z.of_nat (length (it_bytes it))) (Z.of_nat (char_start t j))); [lia|].
  destruct (Z.ltb_spec (Z.of_nat (char_start t j)) (Z.of_nat (char_start t i))); [lia|].
  rewrite !Nat2Z.id. unfold get. rewrite !bi_start by lia. cbn [bind].
  now rewrite (bt_mod B).
Qed.

(** ** Categories *)

Lemma cats_at p k : in_char t p k ->
  exists cs, nth_error cats k = Some cs /\ get_cats_at it p = Ok cs.
Proof.
  intros H. unfold get_cats_at, get. rewrite (bt_bi B p k H). cbn [bind].
  rewrite (bt_cats B).
  destruct (nth_error cats k) eqn:E; eauto.
  apply nth_error_None in E. rewrite (bt_cats_len B) in E. destruct H. lia.
Qed.

Lemma cont_length p k : in_char t p k ->
  exists s e, run_start cats s /\ is_run cats s e /\ s <= k < e /\
    get_cont_length it p = Ok (char_start t e - p) /\ p < char_start t e.
Proof.
  intros H. destruct (bt_conts B p k H) as (s & e & A1 & A2 & A3 & A4).
  exists s, e. repeat split; try apply A2; auto; try lia.
  - unfold get_cont_length, get. now rewrite A4.
  - destruct H as (_ & _ & H). pose proof (char_start_mono t (S k) e ltac:(lia)). lia.
Qed.

(** The intersection loop. *)
Lemma inter_loop k0 acc n :
  k0 + n <= length t -> 
  (forall c, In c acc <-> shared cats k0 (k0 + 1) c) -> 1 <= n ->
  exists cs, foldM (fun acc i => c <- get (it_cats it) i ;; cat_and acc c) acc (seq (k0 + 1) (n - 1)) = Ok cs
    /\ forall c, In c cs <-> shared cats k0 (k0 + n) c.
Proof.
  intros Hn Hacc H1. 
  assert (G : forall m, m + 1 <= n -> exists cs, foldM (fun acc i => c <- get (it_cats it) i ;; cat_and acc c) acc (seq (k0 + 1) m) = Ok cs
    /\ forall c, In c cs <-> shared cats k0 (k0 + (m + 1)) c).
  { induction m; intros Hm.
    - exists acc. split; [reflexivity|exact Hacc].
    - destruct IHm as (cs & E & Hcs); [lia|].
      rewrite seq_S, foldM_app, E. cbn [bind foldM].
      assert (Hx : exists x, nth_error cats (k0 + 1 + m) = Some x).
      { destruct (nth_error cats (k0 + 1 + m)) eqn:E2; eauto.
        apply nth_error_None in E2. rewrite (bt_cats_len B) in E2. lia. }
      destruct Hx as (x & Hx).
      assert (Hxne : x <> []).
      { pose proof (bt_nonempty B) as Hne. eapply Forall_forall in Hne; [exact Hne|].
        eapply nth_error_In; eauto. }
      unfold get. rewrite (bt_cats B), Hx. cbn [bind]. rewrite cat_and_ok by auto. cbn [bind].
      eexists. split; [reflexivity|]. intros c. rewrite cat_inter_In, Hcs. split.
      + intros (A1 & A2) j Hj. destruct (Nat.eq_dec j (k0 + 1 + m)) as [->|]; [eauto|]. apply A1. lia.
      + intros A. split.
        * intros j Hj. apply A. lia.
        * destruct (A (k0 + 1 + m) ltac:(lia)) as (cs' & E' & I). congruence. }
  destruct (G (n - 1) ltac:(lia)) as (cs & E & Hcs). exists cs. split; auto.
  intros c. rewrite Hcs. replace (n - 1 + 1) with n by lia. reflexivity.
Qed.

Lemma cats_range_spec i j s e :
  i < j -> j <= length t -> run_start cats s -> is_run cats s e -> s <= i < e ->
  get_cont_length it (char_start t i) = Ok (char_start t e - char_start t i) ->
  exists cs, get_cats_range it (char_start t i) (char_start t j) = Ok cs /\
    (j <= e -> forall c, In c cs <-> shared cats i j c) /\ (e < j -> cs = []).
Proof.
  intros Hij Hj Hs He Hse Hcl. unfold get_cats_range. rewrite Hcl. cbn [bind].
  assert (Hel : e <= length t) by (destruct He as (? & _); rewrite (bt_cats_len B) in *; lia).
  pose proof (char_start_lt t i e ltac:(lia) Hel).
  replace (char_start t i + (char_start t e - char_start t i)) with (char_start t e) by lia.
  destruct (Nat.ltb_spec (char_start t e) (char_start t j)) as [H1|H1].
  - apply char_start_lt_inv in H1. exists []. split; [reflexivity|]. split; [intros; lia|auto].
  - apply char_start_le_inv in H1; auto.
    unfold get at 1. rewrite bi_start by lia. cbn [bind].
    unfold get at 1. rewrite bi_start by lia. cbn [bind].
    assert (Hx : exists x, nth_error cats i = Some x).
    { destruct (nth_error cats i) eqn:E2; eauto.
      apply nth_error_None in E2. rewrite (bt_cats_len B) in E2. lia. }
    destruct Hx as (x & Hx).
    unfold get at 1. rewrite (bt_cats B), Hx. cbn [bind].
    rewrite <- (bt_cats B).
    replace (j - (i + 1)) with (j - i - 1) by lia.
    destruct (inter_loop i x (j - i)) as (cs & E & Hcs); try lia.
    { intros c. split.
      - intros Hc q Hq. replace q with i by lia. eauto.
      - intros A. destruct (A i ltac:(lia)) as (cs' & E' & I). congruence. }
    exists cs. split; [exact E|]. replace (i + (j - i)) with j in Hcs by lia.
    split; [intros _; rewrite (bt_cats B); exact Hcs|lia].
Qed.

(** ** Code point arithmetic *)

Lemma cpo_loop_spec p target k acc n :
  p + n = length (it_bytes it) -> char_pos p k -> k < target ->
  cpo_loop (it_byte_indexes it) target p n acc
  = Ok (acc + (char_start t (min target (length t)) - p)).
Proof.
  revert p k acc. induction n; intros p k acc Hn Hp Hk; cbn [cpo_loop].
  - f_equal. pose proof (char_start_mono t (min target (length t)) (length t) ltac:(lia)).
    rewrite len_bytes in H. lia.
  - unfold get. rewrite (char_pos_bi _ _ Hp). cbn [bind].
    destruct (Nat.leb_spec target k); [lia|].
    destruct Hp as [Hp|[-> _]]; [|lia].
    destruct (char_pos_exists (S p) ltac:(lia)) as (k' & Hk').
    destruct (le_lt_dec target k') as [Hge|Hlt].
    + (* the next byte is the target *)
      assert (Hs : S p = char_start t target /\ target <= length t).
      { destruct Hp as (Hkl & Hp1 & Hp2).
        assert (char_start t target <= S p).
        { destruct Hk' as [(Q1 & Q2 & Q3)|[Q1 Q2]].
          - pose proof (char_start_mono t target k' Hge). lia.
          - subst. pose proof (char_start_mono t target (length t) Hge). rewrite len_bytes in *. lia. }
        pose proof (char_start_mono t (S k) target ltac:(lia)).
        split; [lia|]. destruct Hk' as [(Q1 & _)|[_ Q2]]; lia. }
      destruct Hs as (Hs & Htl).
      replace (min target (length t)) with target by lia.
      destruct n; cbn [cpo_loop].
      * f_equal. lia.
      * unfold get. rewrite (char_pos_bi _ _ Hk'). cbn [bind].
        destruct (Nat.leb_spec target k'); [f_equal; lia|lia].
    + rewrite (IHn (S p) k' (S acc)); auto; try lia.
      f_equal.
      assert (p < char_start t (min target (length t))); [|lia].
      destruct Hp as (Hkl & Hp1 & Hp2).
      pose proof (char_start_mono t (S k) (min target (length t)) ltac:(lia)). lia.
Qed.

Lemma code_points_offset_spec p k n :
  in_char t p k -> 1 <= n ->
  get_code_points_offset_length it p n = Ok (char_start t (min (k + n) (length t)) - p).
Proof.
  intros Hp Hn. unfold get_code_points_offset_length, get.
  rewrite (bt_bi B p k Hp). cbn [bind].
  pose proof (in_char_lt _ _ Hp).
  rewrite (cpo_loop_spec p (k + n) k 0 (length (it_bytes it) - p)); auto; try lia.
  now left.
Qed.

Lemma code_points_offset_zero p k :
  in_char t p k -> get_code_points_offset_length it p 0 = Ok 0.
Proof.
  intros Hp. unfold get_code_points_offset_length, get.
  rewrite (bt_bi B p k Hp). cbn [bind].
  pose proof (in_char_lt _ _ Hp).
  destruct (length (it_bytes it) - p) eqn:E; [lia|]. cbn [cpo_loop].
  unfold get. rewrite (bt_bi B p k Hp). cbn [bind].
  destruct (Nat.leb_spec (k + 0) k); [reflexivity|lia].
Qed.

Lemma code_point_count_spec p q i j :
  char_pos p i -> char_pos q j -> code_point_count it p q = Ok (Z.of_nat j - Z.of_nat i)%Z.
Proof.
  intros Hp Hq. unfold code_point_count, get.
  now rewrite (char_pos_bi _ _ Hp), (char_pos_bi _ _ Hq).
Qed.

(** ** Word starts *)

Lemma land_cont b : (0 <= b < 256)%Z -> (Z.land b 0xC0 =? 0x80)%Z = is_cont b.
Proof.
  intros H.
  assert (G : forallb (fun n => Bool.eqb (Z.land (Z.of_nat n) 0xC0 =? 0x80)%Z (is_cont (Z.of_nat n)))
                (seq 0 256) = true) by (vm_compute; reflexivity).
  rewrite forallb_forall in G.
  specialize (G (Z.to_nat b)). rewrite Z2Nat.id in G by lia.
  apply eqb_prop. apply G. apply in_seq. lia.
Qed.

Lemma nth_error_encode T b p k :
  encode T = Ok b -> in_char T p k ->
  exists c, nth_error T k = Some c /\ is_scalar c = true /\
    nth_error b p = nth_error (encode_cp c) (p - char_start T k).
Proof.
  revert b p k. induction T as [|c T IH]; intros b p k He (Hk & Hp1 & Hp2); [simpl in Hk; lia|].
  simpl in He. destruct (is_scalar c) eqn:Es; [|discriminate].
  apply bind_ok in He as (b' & Hb & [= <-]).
  destruct k as [|k].
  - exists c. repeat split; auto. rewrite char_start_0, Nat.sub_0_r.
    rewrite char_start_cons, char_start_0 in Hp2.
    apply nth_error_app1. lia.
  - rewrite !char_start_cons in Hp1. rewrite char_start_cons in Hp2.
    destruct (IH b' (p - length (encode_cp c)) k Hb) as (c' & A1 & A2 & A3).
    { repeat split; simpl in Hk; lia. }
    exists c'. repeat split; auto. rewrite nth_error_app2 by lia. rewrite A3.
    f_equal. rewrite char_start_cons. lia.
Qed.

Lemma can_bow_spec p k : in_char t p k ->
  exists b, can_bow it p = Ok b /\ (b = true <-> p = char_start t k /\ bow_at cats k).
Proof.
  intros Hp. unfold can_bow.
  destruct (nth_error_encode t (it_bytes it) p k (bt_enc B) Hp) as (c & Ec & Hs & En).
  destruct (encode_cp_shape c Hs) as (b0 & r & Esh & Hb0 & Hr & Hrange).
  pose proof Hp as (Hk & Hp1 & Hp2). rewrite (char_start_S _ _ _ Ec) in Hp2.
  rewrite Esh in En, Hp2. simpl in Hp2.
  unfold get at 1.
  destruct (p - char_start t k) as [|q] eqn:Eq.
  - simpl in En. rewrite En. cbn [bind]. rewrite land_cont by lia. rewrite Hb0.
    unfold get at 1. rewrite (bt_bi B p k Hp). cbn [bind].
    destruct (nth_error (it_bow it) k) as [b|] eqn:Eb.
    2:{ apply nth_error_None in Eb. rewrite (bt_bow_len B) in Eb. lia. }
    unfold get. rewrite Eb. exists b. split; [reflexivity|].
    rewrite (bt_bow B k b Eb). split; [intros; split; [lia|auto]|tauto].
  - simpl in En.
    destruct (nth_error r q) as [x|] eqn:Ex.
    2:{ apply nth_error_None in Ex. lia. }
    assert (Hx : is_cont x = true).
    { eapply Forall_forall in Hr; [exact Hr|]. eapply nth_error_In; eauto. }
    assert (Hxr : (0 <= x < 256)%Z) by (unfold is_cont in Hx; Zbool; lia).
    rewrite En. cbn [bind]. rewrite land_cont by auto. rewrite Hx.
    exists false. split; [reflexivity|]. split; [discriminate|lia].
Qed.

(** The first position after [p] where a word may start, or the end. *)
Definition next_bow (p q : nat) : Prop :=
  p < q <= length (it_bytes it) /\
  (q = length (it_bytes it) \/ can_bow it q = Ok true) /\
  forall r, p < r < q -> can_bow it r = Ok false.

Lemma wcl_loop_spec index i n :
  index < i -> i + n = length (it_bytes it) ->
  (forall r, index < r < i -> can_bow it r = Ok false) ->
  exists l, wcl_loop it index i n = Ok l /\ next_bow index (index + l).
Proof.
  revert i. induction n; intros i Hi Hn Hf; cbn [wcl_loop].
  - eexists. split; [reflexivity|]. replace (index + (length (it_bytes it) - index)) with i by lia.
    repeat split; auto; lia.
  - destruct (in_char_exists t _ i (bt_enc B) ltac:(lia)) as (k & Hk).
    destruct (can_bow_spec i k Hk) as (b & Eb & _). rewrite Eb. cbn [bind].
    destruct b.
    + eexists. split; [reflexivity|]. replace (index + (i - index)) with i by lia.
      repeat split; auto; lia.
    + apply IHn; auto; try lia.
      intros r Hr. destruct (Nat.eq_dec r i) as [->|]; auto. apply Hf. lia.
Qed.

Lemma word_candidate_spec index : index < length (it_bytes it) ->
  exists l, get_word_candidate_length it index = Ok l /\ next_bow index (index + l).
Proof.
  intros H. unfold get_word_candidate_length. apply wcl_loop_spec; auto; try lia.
Qed.
End built.
