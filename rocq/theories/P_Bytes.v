(** What is written is read back: integers, UTF-16 and memory-mapped files. *)
From Coq Require Import List ZArith Lia Bool Arith.
From Verif Require Import Base Utf8 M_Bytes.
Import ListNotations.
Open Scope Z_scope.

(** ** Integers *)
Lemma le_length n z : length (le n z) = n.
Proof. revert z. induction n; simpl; intros; auto. Qed.

Lemma le_byte n z : Forall (fun b => 0 <= b < 256) (le n z).
Proof. revert z. induction n; simpl; intros; constructor; auto. apply Z.mod_pos_bound. lia. Qed.

Lemma pow8 n : 2 ^ (8 * Z.of_nat (S n)) = 256 * 2 ^ (8 * Z.of_nat n).
Proof.
  replace (8 * Z.of_nat (S n)) with (8 + 8 * Z.of_nat n) by lia.
  rewrite Z.pow_add_r by lia. reflexivity.
Qed.

Lemma pow8_pos n : 0 < 2 ^ (8 * Z.of_nat n).
Proof. apply Z.pow_pos_nonneg; lia. Qed.

Lemma unle_le n z : unle (le n z) = z mod 2 ^ (8 * Z.of_nat n).
Proof.
  revert z. induction n; intros z.
  - simpl. rewrite Z.mod_1_r. reflexivity.
  - cbn [le unle]. rewrite IHn, pow8. rewrite Z.rem_mul_r by (try lia; apply pow8_pos). reflexivity.
Qed.

Lemma unle_range b : Forall (fun x => 0 <= x < 256) b -> 0 <= unle b < 2 ^ (8 * Z.of_nat (length b)).
Proof.
  induction 1; [simpl; lia|]. cbn [unle length]. rewrite pow8. lia.
Qed.

Lemma le_unle b : Forall (fun x => 0 <= x < 256) b -> le (length b) (unle b) = b.
Proof.
  induction 1; [reflexivity|]. cbn [le unle length].
  replace (x + 256 * unle l) with (x + unle l * 256) by lia.
  rewrite Z.mod_add, Z.div_add by lia. rewrite Z.mod_small, Z.div_small by lia. cbn [Z.add]. congruence.
Qed.

Lemma to_bytes_unsigned n z b : to_bytes n false z = Ok b -> b = le n z /\ unle b = z /\ length b = n /\ 0 <= z.
Proof.
  unfold to_bytes. destruct (_ && _) eqn:E; [|discriminate]. intros [= <-]. Zbool.
  rewrite unle_le, le_length, Z.mod_small by lia. auto.
Qed.

Lemma signed_mod m z : 0 < m -> - m <= 2 * z < m ->
  (if 2 * (z mod m) <? m then z mod m else z mod m - m) = z.
Proof.
  intros Hm Hz. destruct (Z.lt_ge_cases z 0).
  - assert (E : z mod m = z + m).
    { symmetry. apply Z.mod_unique with (q := -1); lia. }
    rewrite E. destruct (_ <? _) eqn:B; Zbool; lia.
  - rewrite Z.mod_small by lia. destruct (_ <? _) eqn:B; Zbool; lia.
Qed.

Lemma to_bytes_signed n z b : n <> O -> to_bytes n true z = Ok b -> b = le n z /\ unle_signed b = z /\ length b = n
  /\ - 2 ^ (8 * Z.of_nat n) <= 2 * z < 2 ^ (8 * Z.of_nat n).
Proof.
  intros Hn. unfold to_bytes. destruct (_ && _) eqn:E; [|discriminate]. intros [= <-].
  apply andb_true_iff in E as [E1 E2]. apply Z.leb_le in E1. apply Z.ltb_lt in E2.
  split; [reflexivity|]. rewrite le_length. split; [|auto].
  unfold unle_signed. rewrite le_length, unle_le.
  assert (L : le n z <> []) by (destruct n; simpl; congruence).
  destruct (le n z) eqn:E; [congruence|].
  apply signed_mod; auto. apply pow8_pos.
Qed.

Lemma put_byte_ok z b : put_byte z = Ok b <-> b = [z] /\ 0 <= z < 256.
Proof.
  unfold put_byte, to_bytes. change (2 ^ (8 * Z.of_nat 1)) with 256.
  destruct (_ && _) eqn:E; split.
  - intros [= <-]. Zbool. cbn. rewrite Z.mod_small by lia. auto.
  - intros [-> H]. cbn. rewrite Z.mod_small by lia. auto.
  - discriminate.
  - intros [-> H]. exfalso. apply andb_false_iff in E as [E|E]; Zbool; lia.
Qed.

Lemma put_short_ok z b : put_short z = Ok b -> length b = 2%nat /\ unle_signed b = z /\ -32768 <= z < 32768.
Proof.
  intros H. apply to_bytes_signed in H as (-> & H & L & R); [|lia].
  change (2 ^ (8 * Z.of_nat 2)) with 65536 in R. repeat split; auto; lia.
Qed.

Lemma put_short_unsigned z b : put_short z = Ok b -> 0 <= z -> unle b = z.
Proof.
  intros H Hz. pose proof (put_short_ok _ _ H) as (_ & _ & R).
  apply to_bytes_signed in H as (-> & _); [|lia]. rewrite unle_le.
  change (2 ^ (8 * Z.of_nat 2)) with 65536. apply Z.mod_small. lia.
Qed.

Lemma put_int_ok z b : put_int z = Ok b -> length b = 4%nat /\ unle_signed b = z /\ -2147483648 <= z < 2147483648.
Proof.
  intros H. apply to_bytes_signed in H as (-> & H & L & R); [|lia].
  change (2 ^ (8 * Z.of_nat 4)) with 4294967296 in R. repeat split; auto; lia.
Qed.

Lemma put_int_unsigned z b : put_int z = Ok b -> 0 <= z -> unle b = z.
Proof.
  intros H Hz. pose proof (put_int_ok _ _ H) as (_ & _ & R).
  apply to_bytes_signed in H as (-> & _); [|lia]. rewrite unle_le.
  change (2 ^ (8 * Z.of_nat 4)) with 4294967296. apply Z.mod_small. lia.
Qed.

Lemma put_short_total z : -32768 <= z < 32768 -> exists b, put_short z = Ok b.
Proof.
  intros H. unfold put_short, to_bytes. change (2 ^ (8 * Z.of_nat 2)) with 65536.
  replace (- (65536) <=? 2 * z) with true by (symmetry; apply Z.leb_le; lia).
  replace (2 * z <? 65536) with true by (symmetry; apply Z.ltb_lt; lia). cbn [andb]. eauto.
Qed.
Lemma put_int_total z : -2147483648 <= z < 2147483648 -> exists b, put_int z = Ok b.
Proof.
  intros H. unfold put_int, to_bytes. change (2 ^ (8 * Z.of_nat 4)) with 4294967296.
  replace (- (4294967296) <=? 2 * z) with true by (symmetry; apply Z.leb_le; lia).
  replace (2 * z <? 4294967296) with true by (symmetry; apply Z.ltb_lt; lia). cbn [andb]. eauto.
Qed.
Lemma put_int_byte z b : put_int z = Ok b -> Forall (fun x => 0 <= x < 256) b.
Proof. intros H. apply to_bytes_signed in H as (-> & _); [|lia]. apply le_byte. Qed.
Lemma put_short_byte z b : put_short z = Ok b -> Forall (fun x => 0 <= x < 256) b.
Proof. intros H. apply to_bytes_signed in H as (-> & _); [|lia]. apply le_byte. Qed.

(** ** UTF-16 *)
Lemma units_cp_range c : is_scalar c = true -> Forall (fun u => 0 <= u < 65536) (units_cp c).
Proof.
  intros H. apply is_scalar_range in H. unfold units_cp.
  destruct (c <? 65536) eqn:E; Zbool.
  - constructor; [lia|constructor].
  - dm (c - 65536) 1024. repeat constructor; try lia.
Qed.

Lemma pairs_le us : Forall (fun u => 0 <= u < 65536) us -> pairs false (concat (map (le 2) us)) = Ok us.
Proof.
  induction 1; [reflexivity|].
  change (concat (map (le 2) (x :: l))) with (x mod 256 :: (x / 256) mod 256 :: concat (map (le 2) l)).
  cbn [pairs]. rewrite IHForall. cbn [bind]. f_equal. f_equal.
  dm x 256. rewrite (Z.mod_small (x / 256)); lia.
Qed.

Lemma utf16_ok t b : utf16 t = Ok b ->
  b = concat (map (le 2) (units t)) /\ Forall (fun c => is_scalar c = true) t.
Proof.
  revert b. induction t; cbn [utf16]; intros b H.
  - inversion H. split; auto.
  - destruct (is_scalar a) eqn:Hs; [|discriminate]. apply bind_ok in H as (b' & Hb & [= <-]).
    destruct (IHt _ Hb) as [-> F]. split; auto.
    unfold units. cbn [map concat]. rewrite map_app, concat_app. reflexivity.
Qed.

Lemma utf16_total t : Forall (fun c => is_scalar c = true) t -> exists b, utf16 t = Ok b.
Proof. induction 1; cbn [utf16]; eauto. rewrite H. destruct IHForall as [b ->]. simpl. eauto. Qed.

Lemma concat_le2_length us : length (concat (map (le 2) us)) = (2 * length us)%nat.
Proof. induction us; auto. cbn [map concat]. rewrite app_length, IHus, le_length. simpl. lia. Qed.

Lemma utf16_length t b : utf16 t = Ok b -> length b = (2 * length (units t))%nat.
Proof. intros H. apply utf16_ok in H as [-> _]. apply concat_le2_length. Qed.

Lemma units_range t : Forall (fun c => is_scalar c = true) t -> Forall (fun u => 0 <= u < 65536) (units t).
Proof.
  induction 1; [constructor|]. unfold units. cbn [map concat]. apply Forall_app. split; auto.
  now apply units_cp_range.
Qed.

Lemma of_units_cp c r : is_scalar c = true -> of_units (units_cp c ++ r) = (t <- of_units r ;; Ok (c :: t)).
Proof.
  intros Hs. pose proof (is_scalar_range _ Hs) as R. unfold units_cp.
  destruct (c <? 65536) eqn:E; Zbool.
  - cbn [app of_units].
    unfold is_scalar, is_surrogate in Hs. apply andb_true_iff in Hs as [_ Hs]. apply negb_true_iff in Hs.
    destruct ((56320 <=? c) && (c <=? 57343)) eqn:E1.
    { exfalso. Zbool. apply andb_false_iff in Hs as [Hs|Hs]; Zbool; lia. }
    destruct ((55296 <=? c) && (c <=? 56319)) eqn:E2.
    { exfalso. Zbool. apply andb_false_iff in Hs as [Hs|Hs]; Zbool; lia. }
    reflexivity.
  - cbn [app of_units]. dm (c - 65536) 1024.
    set (q := (c - 65536) / 1024) in *. set (m := (c - 65536) mod 1024) in *.
    leb_f 56320 (55296 + q). cbn [andb]. leb_t 55296 (55296 + q). leb_t (55296 + q) 56319. cbn [andb].
    leb_t 56320 (56320 + m). leb_t (56320 + m) 57343. cbn [andb].
    destruct (of_units r); cbn [bind]; auto. do 2 f_equal. lia.
Qed.

Lemma of_units_units t : Forall (fun c => is_scalar c = true) t -> of_units (units t) = Ok t.
Proof.
  induction 1; [reflexivity|]. unfold units. cbn [map concat]. rewrite of_units_cp by auto.
  unfold units in IHForall. rewrite IHForall. reflexivity.
Qed.

Lemma unutf16_le_utf16 t b : utf16 t = Ok b -> unutf16_le b = Ok t.
Proof.
  intros H. apply utf16_ok in H as [-> F]. unfold unutf16_le.
  rewrite pairs_le by (now apply units_range). cbn [bind]. now apply of_units_units.
Qed.

(** [decode('utf-16')] drops a byte order mark. *)
Lemma unutf16_utf16 t b :
  utf16 t = Ok b -> hd 0 t <> 0xFEFF -> hd 0 t <> 0xFFFE -> unutf16 b = Ok t.
Proof.
  intros H N1 N2. pose proof (unutf16_le_utf16 _ _ H) as D.
  assert (X : forall r, b <> 255 :: 254 :: r /\ b <> 254 :: 255 :: r).
  { intros r. destruct t as [|c t]; cbn [utf16] in H.
    { inversion H. split; discriminate. }
    destruct (is_scalar c) eqn:Hs; [|discriminate]. apply bind_ok in H as (b' & _ & [= <-]).
    pose proof (is_scalar_range _ Hs) as R. cbn [hd] in N1, N2. unfold units_cp.
    destruct (c <? 65536) eqn:E; Zbool.
    - cbn [map concat app le]. dm c 256. rewrite (Z.mod_small (c / 256)) by lia.
      split; intros [= E1 E2 _]; lia.
    - cbn [map concat app le]. dm (c - 65536) 1024.
      set (u := 55296 + (c - 65536) / 1024) in *.
      dm u 256. rewrite (Z.mod_small (u / 256)) by lia.
      split; intros [= E1 E2 _]; lia. }
  unfold unutf16.
  destruct b as [|x [|y r]]; auto. destruct (X r) as [X1 X2].
  destruct ((x =? 255) && (y =? 254)) eqn:E1; [Zbool; congruence|].
  destruct ((x =? 254) && (y =? 255)) eqn:E2; [Zbool; congruence|]. exact D.
Qed.

(** ** Reading *)
Lemma prun_bind {A B} d (c : prog A) (f : A -> prog B) p :
  prun d p (pbind c f) = match prun d p c with (p', Ok a) => prun d p' (f a) | (p', Err e) => (p', Err e) end.
Proof.
  revert p. induction c; intros p; cbn [pbind prun]; auto.
  - destruct (_ && _); auto.
  - destruct (nth_error d p); auto.
Qed.

(** [b] is what stands in [d] at [p]. *)
Definition At (d : bytes) (p : nat) (b : bytes) : Prop := exists pre post, d = pre ++ b ++ post /\ length pre = p.

Lemma At_app d p b1 b2 : At d p (b1 ++ b2) <-> At d p b1 /\ At d (p + length b1)%nat b2.
Proof.
  split.
  - intros (pre & post & -> & L). split.
    + exists pre, (b2 ++ post). now rewrite <- app_assoc.
    + exists (pre ++ b1), post. rewrite app_length, L. now rewrite <- !app_assoc.
  - intros [(pre & post & E & L) (pre' & post' & E' & L')].
    exists pre, post'. split; auto. rewrite <- app_assoc. rewrite E. f_equal.
    assert (Hp : pre' = pre ++ b1).
    { rewrite E in E'. rewrite app_assoc in E'.
      apply (f_equal (firstn (length (pre ++ b1)))) in E'.
      rewrite firstn_app, firstn_all, Nat.sub_diag in E'. cbn [firstn] in E'. rewrite app_nil_r in E'.
      rewrite app_length, L, <- L', firstn_app, firstn_all, Nat.sub_diag in E'. cbn [firstn] in E'.
      rewrite app_nil_r in E'. auto. }
    subst pre'. rewrite E in E'. rewrite <- app_assoc in E'. apply app_inv_head in E'.
    exact E'.
Qed.

Lemma At_skipn d p b : At d p b -> skipn p d = b ++ skipn (p + length b) d.
Proof.
  intros (pre & post & -> & <-).
  rewrite skipn_app, skipn_all, Nat.sub_diag. cbn [skipn app]. f_equal.
  rewrite app_assoc, <- app_length, skipn_app, skipn_all, Nat.sub_diag. reflexivity.
Qed.

Lemma At_firstn d p b : At d p b -> firstn (length b) (skipn p d) = b.
Proof.
  intros H. rewrite (At_skipn _ _ _ H). rewrite firstn_app, firstn_all, Nat.sub_diag. cbn [firstn]. now rewrite app_nil_r.
Qed.

Lemma At_slice d p b : At d p b -> slice d p (p + length b) = b.
Proof.
  intros (pre & post & -> & <-). unfold slice.
  rewrite app_assoc, <- app_length, firstn_app, firstn_all, Nat.sub_diag. cbn [firstn].
  rewrite app_nil_r, skipn_app, skipn_all, Nat.sub_diag. reflexivity.
Qed.

Lemma At_nth d p b i : At d p b -> (i < length b)%nat -> nth_error d (p + i) = nth_error b i.
Proof.
  intros (pre & post & -> & <-) Hi. rewrite nth_error_app2 by lia.
  replace (length pre + i - length pre)%nat with i by lia. now rewrite nth_error_app1.
Qed.

Lemma At_length d p b : At d p b -> (p + length b <= length d)%nat.
Proof. intros (pre & post & -> & <-). rewrite !app_length. lia. Qed.

Lemma At_sub d p b q c : At d p b -> At b q c -> At d (p + q) c.
Proof.
  intros (pre & post & -> & <-) (pre' & post' & -> & <-).
  exists (pre ++ pre'), (post' ++ post). rewrite app_length, <- !app_assoc. auto.
Qed.

Lemma At_here d : At d 0 d.
Proof. exists [], []. rewrite app_nil_r. auto. Qed.

Lemma At_mid pre b post : At (pre ++ b ++ post) (length pre) b.
Proof. exists pre, post. auto. Qed.

Lemma At_nil d p : (p <= length d)%nat -> At d p [].
Proof. intros H. exists (firstn p d), (skipn p d). cbn [app]. rewrite firstn_skipn, firstn_length. split; auto. lia. Qed.

Lemma prun_read {A} d p b (k : bytes -> prog A) n :
  At d p b -> n = length b -> prun d p (Read n k) = prun d (p + n) (k b).
Proof. intros H ->. cbn [prun]. rewrite (At_firstn _ _ _ H). reflexivity. Qed.

Lemma prun_byte {A} d p x (k : Z -> prog A) : At d p [x] -> prun d p (ReadByte k) = prun d (p + 1) (k x).
Proof.
  intros H. cbn [prun]. pose proof (At_nth _ _ _ 0 H ltac:(simpl; lia)) as E. rewrite Nat.add_0_r in E.
  rewrite E. simpl. f_equal. lia.
Qed.

Lemma prun_seek {A} d p i (k : prog A) : 0 <= i <= Z.of_nat (length d) -> prun d p (Seek i k) = prun d (Z.to_nat i) k.
Proof.
  intros H. cbn [prun].
  replace (0 <=? i) with true by (symmetry; apply Z.leb_le; lia).
  replace (i <=? Z.of_nat (length d)) with true by (symmetry; apply Z.leb_le; lia). reflexivity.
Qed.

(** Reading never moves beyond the end. *)
Lemma prun_pos {A} d (c : prog A) : forall p, (p <= length d)%nat -> (fst (prun d p c) <= length d)%nat.
Proof.
  induction c; intros p Hp; cbn [prun]; auto.
  - destruct (_ && _) eqn:E; auto. apply IHc. Zbool. lia.
  - apply H. rewrite firstn_length, skipn_length. lia.
  - destruct (nth_error d p) eqn:E; auto. apply H.
    assert (p < length d)%nat by (apply nth_error_Some; congruence). lia.
Qed.

(** ** Writing *)
Lemma f_write_end f b : f_pos f = length (f_data f) -> f_write f b = File (f_data f ++ b) (length (f_data f ++ b)).
Proof.
  destruct f as [d p]. cbn [f_pos f_data]. intros ->. destruct b as [|x b].
  { cbn [f_write]. now rewrite app_nil_r. }
  unfold f_write. cbn [f_data f_pos]. rewrite firstn_all, Nat.sub_diag. cbn [repeat app].
  rewrite skipn_all2 by lia. rewrite app_nil_r, app_length. reflexivity.
Qed.
