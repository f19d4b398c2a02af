(** The primitives of the binary dictionary format: what is written is read back. *)
From Coq Require Import List ZArith Lia Bool Arith.
From Verif Require Import Base Utf8 M_Builder M_Lattice M_Bytes P_Bytes M_DicReader M_DicBuilder.
Import ListNotations.
Open Scope Z_scope.

(** Reading [c] at [p], where [b] stands, gives [a] and moves behind [b]. *)
Definition reads {A} (c : prog A) (b : bytes) (a : A) : Prop :=
  forall d p, At d p b -> prun d p c = ((p + length b)%nat, Ok a).

Lemma reads_bind {A B} (c : prog A) (f : A -> prog B) b1 b2 a r :
  reads c b1 a -> reads (f a) b2 r -> reads (pbind c f) (b1 ++ b2) r.
Proof.
  intros H1 H2 d p H. apply At_app in H as [A1 A2]. rewrite prun_bind, (H1 _ _ A1), (H2 _ _ A2).
  f_equal. rewrite app_length. lia.
Qed.

Lemma reads_ret {A} (a : A) : reads (Ret a) [] a.
Proof. intros d p _. cbn. f_equal. lia. Qed.

Lemma reads_then {A B} (c : prog A) (f : A -> prog B) b a r :
  reads c b a -> reads (f a) [] r -> reads (pbind c f) b r.
Proof. intros H1 H2. rewrite <- (app_nil_r b). eapply reads_bind; eauto. Qed.

Lemma reads_read b : reads (pread (length b)) b b.
Proof. intros d p H. unfold pread. rewrite (prun_read _ _ b); auto. Qed.

Lemma reads_byte x : reads pbyte [x] x.
Proof. intros d p H. unfold pbyte. rewrite (prun_byte _ _ x); auto. Qed.

Lemma reads_lift {A} (r : res A) a : r = Ok a -> reads (plift r) [] a.
Proof. intros ->. apply reads_ret. Qed.

(** ** Lengths *)
Definition length_code_ok (n : Z) : bool :=
  (Z.lor (Z.shiftr n 8) 0x80 <? 256) && (128 <=? Z.lor (Z.shiftr n 8) 0x80)
  && (Z.lor (Z.shiftl (Z.land (Z.lor (Z.shiftr n 8) 0x80) 0x7F) 8) (Z.land n 0xFF) =? n).

Lemma lor_add a b k : 0 <= k -> 0 <= a < 2 ^ k -> Z.lor a (Z.shiftl b k) = a + b * 2 ^ k.
Proof.
  intros Hk Ha. rewrite <- Z.shiftl_mul_pow2 by lia.
  assert (L : Z.land a (Z.shiftl b k) = 0).
  { apply Z.bits_inj'. intros n Hn. rewrite Z.land_spec, Z.bits_0. destruct (Z.lt_ge_cases n k) as [C|C].
    - rewrite (Z.shiftl_spec_low b k n) by lia. apply andb_false_r.
    - rewrite <- (Z.mod_small a (2 ^ k)) by lia. rewrite Z.mod_pow2_bits_high by lia. reflexivity. }
  rewrite Z.add_nocarry_lxor by exact L. symmetry. now apply Z.lxor_lor.
Qed.

Lemma length_code n : 0 <= n < 32768 -> length_code_ok n = true.
Proof.
  intros H. unfold length_code_ok. rewrite Z.shiftr_div_pow2 by lia. change (2 ^ 8) with 256.
  pose proof (Z.div_mod n 256 ltac:(lia)) as D. pose proof (Z.mod_pos_bound n 256 ltac:(lia)) as M.
  assert (Q : 0 <= n / 256 < 128) by (split; [apply Z.div_pos; lia|apply Z.div_lt_upper_bound; lia]).
  set (q := n / 256) in *.
  assert (E : Z.lor q 128 = q + 128).
  { change 128 with (Z.shiftl 1 7) at 1. rewrite lor_add; [reflexivity|lia|]. change (2 ^ 7) with 128. lia. }
  rewrite E. change 127 with (Z.ones 7). rewrite Z.land_ones by lia. change (2 ^ 7) with 128.
  replace ((q + 128) mod 128) with q.
  2:{ replace (q + 128) with (q + 1 * 128) by lia. rewrite Z.mod_add by lia. symmetry. apply Z.mod_small. lia. }
  change 255 with (Z.ones 8). rewrite Z.land_ones by lia. change (2 ^ 8) with 256.
  rewrite Z.lor_comm, lor_add; [|lia|change (2 ^ 8) with 256; lia]. change (2 ^ 8) with 256.
  rewrite !andb_true_iff, Z.ltb_lt, Z.leb_le, Z.eqb_eq. lia.
Qed.

Lemma put_length_ok n b : 0 <= n < 32768 -> put_length n = Ok b -> reads buffer_to_string_length b n.
Proof.
  intros Hn. unfold put_length. destruct (n <=? 127) eqn:E; Zbool.
  - intros H. apply put_byte_ok in H as [-> R].
    eapply reads_then; [apply reads_byte|].
    replace (n <? 128) with true by (symmetry; apply Z.ltb_lt; lia). apply reads_ret.
  - intros H. apply bind_ok in H as (a & Ha & H). apply bind_ok in H as (b' & Hb & [= <-]).
    apply put_byte_ok in Ha as [-> Ra], Hb as [-> Rb].
    pose proof (length_code n Hn) as L. unfold length_code_ok in L. Zbool.
    eapply reads_bind; [apply reads_byte|].
    replace (_ <? 128) with false by (symmetry; apply Z.ltb_ge; lia).
    eapply reads_then; [apply reads_byte|]. rewrite H0. apply reads_ret.
Qed.

Lemma put_length_total n : 0 <= n < 65536 -> exists b, put_length n = Ok b.
Proof.
  intros H. unfold put_length. destruct (n <=? 127) eqn:E; Zbool.
  - exists [n]. apply put_byte_ok. split; [reflexivity|lia].
  - assert (R : 0 <= Z.land n 255 < 256).
    { change 255 with (Z.ones 8). rewrite Z.land_ones by lia. apply Z.mod_pos_bound. lia. }
    assert (R1 : 0 <= Z.lor (Z.shiftr n 8) 128 < 256).
    { rewrite Z.shiftr_div_pow2 by lia. change (2 ^ 8) with 256.
      assert (0 <= n / 256 < 256) by (split; [apply Z.div_pos; lia|apply Z.div_lt_upper_bound; lia]).
      split; [apply Z.lor_nonneg; lia|].
      destruct (Z.eq_dec (Z.lor (n / 256) 128) 0) as [->|N]; [lia|].
      assert (0 <= Z.lor (n / 256) 128) by (apply Z.lor_nonneg; lia).
      apply Z.log2_lt_cancel. rewrite Z.log2_lor by lia. change (Z.log2 256) with 8. change (Z.log2 128) with 7.
      apply Z.max_lub_lt; [|lia].
      destruct (Z.eq_dec (n / 256) 0) as [->|]; [simpl; lia|].
      apply Z.log2_lt_pow2; lia. }
    destruct (put_byte (Z.lor (Z.shiftr n 8) 128)) eqn:Ea.
    2:{ exfalso. assert (X : put_byte (Z.lor (Z.shiftr n 8) 128) = Ok [Z.lor (Z.shiftr n 8) 128]) by (apply put_byte_ok; auto). congruence. }
    destruct (put_byte (Z.land n 255)) eqn:Eb.
    2:{ exfalso. assert (X : put_byte (Z.land n 255) = Ok [Z.land n 255]) by (apply put_byte_ok; auto). congruence. }
    cbn [bind]. eauto.
Qed.

(** ** Strings *)
Lemma put_string_ok t b : put_string t = Ok b -> (length (units t) < Z.to_nat 32768)%nat -> reads buffer_to_string b t.
Proof.
  unfold put_string. intros H L. apply bind_ok in H as (a & Ha & H). apply bind_ok in H as (u & Hu & [= <-]).
  apply put_length_ok in Ha; [|lia].
  eapply reads_bind; [exact Ha|]. rewrite Nat2Z.id.
  rewrite <- (utf16_length _ _ Hu). eapply reads_then; [apply reads_read|].
  apply reads_lift. now apply unutf16_le_utf16.
Qed.

Lemma put_string_pos t b : put_string t = Ok b -> (length (units t) <= 127)%nat ->
  hd 0 t <> 0xFEFF -> hd 0 t <> 0xFFFE -> reads get_string b t.
Proof.
  unfold put_string. intros H L N1 N2. apply bind_ok in H as (a & Ha & H). apply bind_ok in H as (u & Hu & [= <-]).
  unfold put_length in Ha. replace (_ <=? 127) with true in Ha by (symmetry; apply Z.leb_le; lia).
  apply put_byte_ok in Ha as [-> _].
  eapply reads_bind; [apply reads_byte|]. rewrite Nat2Z.id.
  rewrite <- (utf16_length _ _ Hu). eapply reads_then; [apply reads_read|].
  apply reads_lift. now apply unutf16_utf16.
Qed.

(** ** Integers and arrays of integers *)
Lemma put_short_reads z b : put_short z = Ok b -> reads get_short b z.
Proof.
  intros H. apply put_short_ok in H as (L & U & _). unfold get_short.
  rewrite <- L. eapply reads_then; [apply reads_read|]. rewrite U. apply reads_ret.
Qed.

Lemma put_all_app {A} (f : A -> res bytes) l1 l2 :
  put_all f (l1 ++ l2) = (a <- put_all f l1 ;; b <- put_all f l2 ;; Ok (a ++ b)).
Proof.
  induction l1; simpl.
  - destruct (put_all f l2); reflexivity.
  - destruct (f a); simpl; auto. rewrite IHl1. destruct (put_all f l1); simpl; auto.
    destruct (put_all f l2); simpl; auto. now rewrite app_assoc.
Qed.

Lemma put_all_int_length l b : put_all put_int l = Ok b -> length b = (4 * length l)%nat.
Proof.
  revert b. induction l; simpl; intros b H.
  - now inversion H.
  - apply bind_ok in H as (x & Hx & H). apply bind_ok in H as (y & Hy & [= <-]).
    apply put_int_ok in Hx as (L & _). rewrite app_length, L, (IHl _ Hy). lia.
Qed.

Lemma firstn_exact {A} n (x r : list A) : length x = n -> firstn n (x ++ r) = x.
Proof. intros <-. rewrite firstn_app, firstn_all, Nat.sub_diag. cbn [firstn]. apply app_nil_r. Qed.
Lemma skipn_exact {A} n (x r : list A) : length x = n -> skipn n (x ++ r) = r.
Proof. intros <-. rewrite skipn_app, skipn_all, Nat.sub_diag. reflexivity. Qed.

Lemma sints_ok l : forall b rest, put_all put_int l = Ok b -> sints (length l) (b ++ rest) = l.
Proof.
  induction l; cbn [sints put_all length]; intros b rest H; auto.
  apply bind_ok in H as (x & Hx & H). apply bind_ok in H as (y & Hy & [= <-]).
  pose proof (put_int_ok _ _ Hx) as (L & U & _).
  rewrite <- app_assoc.
  rewrite firstn_exact, skipn_exact, U by auto. f_equal. now apply IHl.
Qed.

Lemma put_int_array_ok l b : put_int_array l = Ok b -> reads buffer_to_int_array b l.
Proof.
  unfold put_int_array. intros H. apply bind_ok in H as (a & Ha & H). apply bind_ok in H as (u & Hu & [= <-]).
  apply put_byte_ok in Ha as [-> R].
  eapply reads_bind; [apply reads_byte|]. rewrite Nat2Z.id.
  rewrite <- (put_all_int_length _ _ Hu). eapply reads_then; [apply reads_read|].
  rewrite Nat.eqb_refl. rewrite <- (app_nil_r u). rewrite (sints_ok _ _ _ Hu). apply reads_ret.
Qed.

Lemma put_int_array_length l b : put_int_array l = Ok b -> (length l < 256)%nat.
Proof. unfold put_int_array. intros H. apply bind_ok in H as (a & Ha & H). apply put_byte_ok in Ha. lia. Qed.

Lemma shorts_app x r : length x = 2%nat -> shorts (x ++ r) = (l <- shorts r ;; Ok (unle_signed x :: l)).
Proof. destruct x as [|a [|b [|c x]]]; try discriminate. reflexivity. Qed.

Lemma uints_ok (l : list nat) : forall b rest, put_all (fun w => put_int (Z.of_nat w)) l = Ok b ->
  uints (length l) (b ++ rest) = map Z.of_nat l /\ length b = (4 * length l)%nat.
Proof.
  induction l; cbn [uints put_all length]; intros b rest H.
  - now inversion H.
  - apply bind_ok in H as (x & Hx & H). apply bind_ok in H as (y & Hy & [= <-]).
    pose proof (put_int_ok _ _ Hx) as (L & _ & _). pose proof (put_int_unsigned _ _ Hx ltac:(lia)) as U.
    destruct (IHl y rest Hy) as [I1 I2].
    rewrite app_length, L, I2. split; [|lia].
    rewrite <- app_assoc.
    cbn [map]. rewrite firstn_exact, skipn_exact, U by auto. f_equal. exact I1.
Qed.
