(** The numeric parser against the reading of numerals. *)
From Coq Require Import List ZArith QArith Qpower Qfield Lia Bool Arith.
From Verif Require Import Base M_NumericParser S_Numeric.
Import ListNotations.
Open Scope Z_scope.

Definition adig (c : Z) : Prop := 48 <= c <= 57.

(** ** Integer value of ASCII digits *)
Fixpoint ival_acc (a : Z) (t : text) : Z :=
  match t with [] => a | c :: r => ival_acc (10 * a + (c - 48)) r end.
Definition ival (t : text) : Z := ival_acc 0 t.

Lemma ival_acc_eq t a : ival_acc a t = a * 10 ^ Z.of_nat (length t) + ival t.
Proof.
  unfold ival. revert a; induction t as [|c t IH]; intros a.
  - cbn. lia.
  - cbn [ival_acc length]. rewrite IH, (IH (10 * 0 + (c - 48))).
    rewrite Nat2Z.inj_succ, Z.pow_succ_r by lia. lia.
Qed.
Lemma ival_app a b : ival (a ++ b) = ival a * 10 ^ Z.of_nat (length b) + ival b.
Proof.
  unfold ival at 1. rewrite <- (ival_acc_eq b (ival a)). unfold ival.
  generalize 0. induction a as [|c a IH]; intros z; cbn; [reflexivity|]. apply IH.
Qed.
Lemma ival_snoc a c : ival (a ++ [c]) = 10 * ival a + (c - 48).
Proof. rewrite ival_app. change (ival [c]) with (10 * 0 + (c - 48)). change (10 ^ Z.of_nat (length [c])) with 10. lia. Qed.
Lemma ival_zeros n : ival (repeat 48 n) = 0.
Proof. unfold ival. induction n as [|n IH]; [reflexivity|]. cbn. exact IH. Qed.

(** ** Powers of ten as rationals *)
Definition p10 (e : Z) : Q := (10 # 1) ^ e.
Lemma p10_plus a b : (p10 (a + b) == p10 a * p10 b)%Q.
Proof. unfold p10. apply Qpower_plus. discriminate. Qed.
Lemma p10_0 : (p10 0 == 1)%Q.
Proof. reflexivity. Qed.
Lemma p10_nat n : (p10 (Z.of_nat n) == inject_Z (10 ^ Z.of_nat n))%Q.
Proof.
  unfold p10. induction n as [|n IH]; [reflexivity|].
  rewrite Nat2Z.inj_succ. unfold Z.succ. rewrite Qpower_plus by discriminate. rewrite IH.
  rewrite Z.pow_add_r by lia. rewrite inject_Z_mult. reflexivity.
Qed.
Lemma p10_Z n : 0 <= n -> (p10 n == inject_Z (10 ^ n))%Q.
Proof. intros H. rewrite <- (Z2Nat.id n H). apply p10_nat. Qed.

(** ** Value of a StringNumber *)
Definition slen (n : strnum) : Z := Z.of_nat (length (sio_buf (sn_sig n))).
Definition frac (n : strnum) : Z := if sn_point n <? 0 then 0 else slen n - sn_point n.
Definition qval (n : strnum) : Q := (inject_Z (ival (sio_buf (sn_sig n))) * p10 (sn_scale n - frac n))%Q.

Record wf (n : strnum) : Prop := {
  wf_pos : sio_pos (sn_sig n) = length (sio_buf (sn_sig n));
  wf_dig : Forall adig (sio_buf (sn_sig n));
  wf_scale : 0 <= sn_scale n;
  wf_point : sn_point n = -1 \/ 1 <= sn_point n <= slen n;
}.
Definition empty (n : strnum) : Prop := sio_buf (sn_sig n) = [].

Lemma wf_tell n : wf n -> tell n = slen n.
Proof. intros W. unfold tell, slen. now rewrite (wf_pos n W). Qed.
Lemma wf_is_zero n : wf n -> sn_is_zero n = true <-> empty n.
Proof.
  intros W. unfold sn_is_zero, empty. rewrite (wf_tell n W). unfold slen.
  destruct (sio_buf (sn_sig n)) as [|c r]; cbn [length]; split; intros H; try reflexivity; try discriminate;
    try (apply Z.eqb_eq in H; lia).
Qed.
Lemma wf_not_zero n : wf n -> sn_is_zero n = false <-> ~ empty n.
Proof.
  intros W. pose proof (wf_is_zero n W) as H. destruct (sn_is_zero n); split; intros K; try discriminate.
  - exfalso. apply K, H. reflexivity.
  - intros E. apply H in E. discriminate.
  - reflexivity.
Qed.
Lemma empty_qval n : empty n -> (qval n == 0)%Q.
Proof. unfold qval, empty. intros ->. cbn. change (inject_Z 0) with 0%Q. ring. Qed.

Lemma write_end s t : sio_pos s = length (sio_buf s) -> sio_write s t = SIO (sio_buf s ++ t) (length (sio_buf s ++ t)).
Proof.
  intros H. unfold sio_write. rewrite H, firstn_all, Nat.sub_diag. cbn [repeat app].
  rewrite skipn_all2 by lia. rewrite app_nil_r, app_length. reflexivity.
Qed.

Lemma clear_eq n : sn_clear n = StrNum (SIO [] 0) 0 (-1) true.
Proof. reflexivity. Qed.
Lemma clear_wf n : wf (sn_clear n).
Proof. constructor; cbn; auto; lia. Qed.
Lemma p_clear_new p : p_clear p = p_new.
Proof. reflexivity. Qed.

Lemma normalize_buf n : sn_sig (sn_normalize n) = sn_sig n.
Proof. unfold sn_normalize. destruct (_ <? 0); [reflexivity|]. destruct (_ <? _); reflexivity. Qed.

Lemma normalize_spec n : wf n -> wf (sn_normalize n) /\ (qval (sn_normalize n) == qval n)%Q
  /\ (0 <= sn_point (sn_normalize n) -> sn_scale (sn_normalize n) = 0).
Proof.
  intros W. unfold sn_normalize. destruct (Z.ltb_spec (sn_point n) 0) as [L|L].
  { split; [exact W|]. split; [reflexivity|lia]. }
  destruct (wf_point n W) as [P|P]; [lia|]. rewrite (wf_tell n W). pose proof (wf_scale n W).
  destruct (Z.ltb_spec (sn_scale n) (slen n - sn_point n)) as [M|M].
  - split; [|split; [|intros _; reflexivity]].
    + constructor; cbn; try apply W; [lia|]. right. unfold slen in *. cbn. lia.
    + unfold qval, frac, slen in *. cbn.
      destruct (Z.ltb_spec (sn_point n + sn_scale n) 0); [lia|]. destruct (Z.ltb_spec (sn_point n) 0); [lia|].
      apply Qmult_comp; [reflexivity|].
      match goal with |- (p10 ?a == p10 ?b)%Q => replace a with b by lia end. reflexivity.
  - split; [|split; [|cbn; intros; lia]].
    + constructor; cbn; try apply W; [lia|]. now left.
    + unfold qval, frac, slen in *. cbn. destruct (Z.ltb_spec (sn_point n) 0); [lia|].
      apply Qmult_comp; [reflexivity|].
      match goal with |- (p10 ?a == p10 ?b)%Q => replace a with b by lia end. reflexivity.
Qed.

Lemma adig_zeros n : Forall adig (repeat 48 n).
Proof. apply Forall_forall. intros x Hx. apply repeat_spec in Hx. subst. unfold adig. lia. Qed.

Lemma fill_zero_buf n k : wf n -> 0 <= k ->
  sn_fill_zero n k = StrNum (SIO (sio_buf (sn_sig n) ++ repeat 48 (Z.to_nat k)) (length (sio_buf (sn_sig n) ++ repeat 48 (Z.to_nat k))))
    (sn_scale n) (sn_point n) (sn_allzero n).
Proof.
  intros W K. unfold sn_fill_zero. destruct (Z.ltb_spec 0 k) as [L|L].
  - now rewrite write_end by apply W.
  - assert (k = 0) by lia. subst k. cbn [Z.to_nat repeat]. rewrite app_nil_r. rewrite <- (wf_pos n W).
    destruct n as [[b p] s pt a]. reflexivity.
Qed.

(** ** Addition *)
Lemma add_wf a b ok a' b' : wf a -> wf b -> sn_add a b = (ok, a', b') -> wf a' /\ wf b' /\ (qval b' == qval b)%Q
  /\ sn_sig b' = sn_sig b.
Proof.
  intros Wa Wb. unfold sn_add.
  destruct (sn_is_zero b) eqn:Zb. { intros [= <- <- <-]. repeat split; try apply Wa; try apply Wb; auto; reflexivity. }
  destruct (sn_is_zero a) eqn:Za.
  { intros [= <- <- <-]. apply (wf_is_zero a Wa) in Za. unfold empty in Za.
    split; [|split; [exact Wb|split; reflexivity]].
    rewrite write_end by apply Wa. rewrite Za. cbn [app]. constructor; cbn; try apply Wb; auto. }
  unfold sn_int_length.
  destruct (normalize_spec a Wa) as (Wa1 & Va1 & Na1). destruct (normalize_spec b Wb) as (Wb1 & Vb1 & Nb1).
  pose proof (normalize_buf b) as Bb.
  set (a1 := sn_normalize a) in *. set (b1 := sn_normalize b) in *.
  match goal with |- context [?l <=? sn_scale a1] => set (len := l) end.
  destruct (Z.leb_spec len (sn_scale a1)) as [L|L].
  2:{ intros [= <- <- <-]. auto. }
  rewrite fill_zero_buf by (auto; lia). cbn -[len]. rewrite write_end by reflexivity. intros [= <- <- <-].
  split; [|auto].
  apply (wf_not_zero b Wb) in Zb. unfold empty in Zb. rewrite <- Bb in Zb.
  assert (1 <= slen b1) by (unfold slen; destruct (sio_buf (sn_sig b1)); [congruence|cbn [length]; lia]).
  pose proof (wf_scale b1 Wb1).
  assert (1 <= len).
  { unfold len. destruct (Z.leb_spec 0 (sn_point b1)).
    - destruct (wf_point b1 Wb1); lia.
    - rewrite (wf_tell b1 Wb1). lia. }
  assert (Pa : sn_point a1 = -1). { destruct (wf_point a1 Wa1) as [P|P]; [exact P|]. specialize (Na1 ltac:(lia)). lia. }
  constructor; cbn -[len]; auto.
  - rewrite !Forall_app. repeat split; [apply Wa1|apply adig_zeros|apply Wb1].
  - unfold slen, tell in *. cbn -[len]. rewrite !app_length. rewrite Pa.
    destruct (wf_point b1 Wb1) as [P|P].
    + destruct (Z.leb_spec 0 (sn_point b1)); [lia|]. now left.
    + destruct (Z.leb_spec 0 (sn_point b1)); [|lia]. right. unfold slen in P. lia.
Qed.

Lemma add_val a b a' b' : wf a -> wf b -> sn_add a b = (true, a', b') ->
  (qval a' == qval a + qval b)%Q /\ (empty a' <-> empty a /\ empty b).
Proof.
  intros Wa Wb. unfold sn_add.
  destruct (sn_is_zero b) eqn:Zb.
  { intros [= <- <-]. apply (wf_is_zero b Wb) in Zb. split; [|tauto].
    rewrite (empty_qval b Zb). ring. }
  pose proof (proj1 (wf_not_zero b Wb) Zb) as Nb.
  destruct (sn_is_zero a) eqn:Za.
  { intros [= <- <-]. apply (wf_is_zero a Wa) in Za. split.
    - rewrite (empty_qval a Za), Qplus_0_l. rewrite write_end by apply Wa. unfold empty in Za. rewrite Za. cbn [app].
      reflexivity.
    - unfold empty in *. cbn [sn_sig]. rewrite write_end by apply Wa. cbn. rewrite Za. cbn. tauto. }
  pose proof (proj1 (wf_not_zero a Wa) Za) as Na.
  unfold sn_int_length.
  destruct (normalize_spec a Wa) as (Wa1 & Va1 & Na1). destruct (normalize_spec b Wb) as (Wb1 & Vb1 & Nb1).
  pose proof (normalize_buf b) as Bb. pose proof (normalize_buf a) as Ba.
  set (a1 := sn_normalize a) in *. set (b1 := sn_normalize b) in *.
  match goal with |- context [?l <=? sn_scale a1] => set (len := l) end.
  destruct (Z.leb_spec len (sn_scale a1)) as [L|L]; [|discriminate].
  rewrite fill_zero_buf by (auto; lia). cbn -[len]. rewrite write_end by reflexivity. intros [= <- <-].
  unfold empty in Nb. rewrite <- Bb in Nb.
  assert (1 <= slen b1) by (unfold slen; destruct (sio_buf (sn_sig b1)); [congruence|cbn [length]; lia]).
  pose proof (wf_scale b1 Wb1).
  assert (1 <= len).
  { unfold len. destruct (Z.leb_spec 0 (sn_point b1)).
    - destruct (wf_point b1 Wb1); lia.
    - rewrite (wf_tell b1 Wb1). lia. }
  assert (Pa : sn_point a1 = -1). { destruct (wf_point a1 Wa1) as [P|P]; [exact P|]. specialize (Na1 ltac:(lia)). lia. }
  split.
  2:{ unfold empty in *. cbn. split; [|tauto]. intros E. apply app_eq_nil in E. destruct E as [_ E]. congruence. }
  rewrite <- Va1, <- Vb1. unfold qval at 1. cbn -[len].
  rewrite !ival_app, ival_zeros, Z.add_0_r. rewrite repeat_length.
  set (x := ival (sio_buf (sn_sig a1))). set (y := ival (sio_buf (sn_sig b1))).
  rewrite inject_Z_plus, !inject_Z_mult, <- !p10_nat. rewrite Z2Nat.id by lia.
  unfold qval. fold x. fold y.
  rewrite Qmult_plus_distr_l. apply Qplus_comp.
  - rewrite <- !Qmult_assoc. apply Qmult_comp; [reflexivity|]. rewrite <- !p10_plus.
    match goal with |- (p10 ?u == p10 ?v)%Q => assert (X : u = v); [|rewrite X; reflexivity] end.
    unfold frac, slen, len, tell in *. cbn. rewrite !app_length, repeat_length, Pa in *. cbn.
    destruct (wf_point b1 Wb1) as [P|P].
    + rewrite P in *. cbn. rewrite (wf_pos b1 Wb1). lia.
    + destruct (Z.leb_spec 0 (sn_point b1)); [|lia]. specialize (Nb1 ltac:(lia)). rewrite Nb1. 
      match goal with |- context [?u <? 0] => destruct (Z.ltb_spec u 0); [lia|] end. lia.
  - apply Qmult_comp; [reflexivity|].
    match goal with |- (p10 ?u == p10 ?v)%Q => assert (X : u = v); [|rewrite X; reflexivity] end.
    unfold frac, slen, len, tell in *. cbn. rewrite !app_length, repeat_length, Pa in *.
    destruct (wf_point b1 Wb1) as [P|P].
    + rewrite P in *. cbn. lia.
    + destruct (Z.leb_spec 0 (sn_point b1)); [|lia]. destruct (Z.ltb_spec (sn_point b1) 0); [lia|].
      match goal with |- context [?u <? 0] => destruct (Z.ltb_spec u 0); [lia|] end. lia.
Qed.

(** ** Characters *)
Lemma char_to_num_digit c num : char_to_num c = Some num -> is_small_unit num = false -> is_large_unit num = false ->
  digit_char c num /\ 0 <= num <= 9.
Proof.
  unfold char_to_num. intros E S1 L1.
  destruct ((48 <=? c) && (c <=? 57)) eqn:A.
  { apply andb_prop in A. destruct A as [A1 A2]. apply Z.leb_le in A1, A2. injection E as <-.
    split; [apply dc_ascii; lia|lia]. }
  repeat match type of E with
  | (if ?x =? ?y then _ else _) = _ =>
      destruct (Z.eqb_spec x y) as [->|_];
      [injection E as <-; first [cbv in S1; discriminate S1 | cbv in L1; discriminate L1 | split; [first [apply dc_0|apply dc_1|apply dc_2|apply dc_3|apply dc_4|apply dc_5|apply dc_6|apply dc_7|apply dc_8|apply dc_9]|lia]]|]
  end. discriminate.
Qed.
Lemma char_to_num_small c num : char_to_num c = Some num -> is_small_unit num = true -> exists m, small_unit c m /\ (m == p10 (- num))%Q /\ 0 <= - num.
Proof.
  unfold char_to_num. intros E S1.
  destruct ((48 <=? c) && (c <=? 57)) eqn:A.
  { apply andb_prop in A. destruct A as [A1 A2]. apply Z.leb_le in A1, A2. injection E as <-.
    unfold is_small_unit in S1. apply andb_prop in S1. destruct S1 as [S1 S2]. apply Z.leb_le in S1. apply Z.ltb_lt in S2. lia. }
  repeat match type of E with
  | (if ?x =? ?y then _ else _) = _ =>
      destruct (Z.eqb_spec x y) as [->|_];
      [injection E as <-; first [cbv in S1; discriminate S1 | eexists; split; [constructor|split; [reflexivity|lia]]]|]
  end. discriminate.
Qed.
Lemma char_to_num_large c num : char_to_num c = Some num -> is_large_unit num = true -> exists m, large_unit c m /\ (m == p10 (- num))%Q /\ 0 <= - num.
Proof.
  unfold char_to_num. intros E S1.
  destruct ((48 <=? c) && (c <=? 57)) eqn:A.
  { apply andb_prop in A. destruct A as [A1 A2]. apply Z.leb_le in A1, A2. injection E as <-.
    unfold is_large_unit in S1. apply Z.leb_le in S1. lia. }
  repeat match type of E with
  | (if ?x =? ?y then _ else _) = _ =>
      destruct (Z.eqb_spec x y) as [->|_];
      [injection E as <-; first [cbv in S1; discriminate S1 | eexists; split; [constructor|split; [reflexivity|lia]]]|]
  end. discriminate.
Qed.

(** ** Digits *)
Definition same_digit (c b : Z) : Prop := digit_char c (b - 48).
Lemma digits_of l b : Forall2 same_digit l b -> l <> [] -> digits l (ival b) (length b).
Proof.
  revert b. induction l as [|c l IH] using rev_ind; intros b F N; [congruence|].
  apply Forall2_app_inv_l in F. destruct F as (b1 & b2 & F1 & F2 & ->).
  inversion F2 as [|? d ? ? Hd F3]; subst. inversion F3; subst. rewrite app_length, Nat.add_comm. cbn [length Nat.add].
  rewrite ival_snoc. destruct l as [|c' l].
  - inversion F1; subst. change (10 * ival [] + (d - 48)) with (d - 48). change (length (@nil Z)) with 0%nat.
    constructor. exact Hd.
  - apply digits_more; [|exact Hd]. apply IH; [exact F1|discriminate].
Qed.

(** ** Prefixes of the reading *)
Inductive gprefix : text -> Q -> Prop :=
| gp_nil : gprefix [] 0
| gp_one s v u m : gprefix s v -> small_unit u m -> gprefix (s ++ [u]) (v + m)
| gp_unit s v d w u m : gprefix s v -> decimal d w -> small_unit u m -> gprefix (s ++ d ++ [u]) (v + w * m).
Lemma gprefix_group s v : gprefix s v -> forall r w, group r w -> exists v', group (s ++ r) v' /\ (v' == v + w)%Q.
Proof.
  induction 1 as [|s v u m G IH U|s v d x u m G IH D U]; intros r w R.
  - exists w. split; [exact R|ring].
  - destruct (IH (u :: r) (m + w)%Q) as (v' & K & E); [apply group_one_unit; auto|].
    exists v'. rewrite <- app_assoc. split; [exact K|]. rewrite E. ring.
  - destruct (IH (d ++ u :: r) (x * m + w)%Q) as (v' & K & E); [apply group_unit; auto|].
    exists v'. rewrite <- !app_assoc. split; [exact K|]. rewrite E. ring.
Qed.
Inductive nprefix : text -> Q -> Prop :=
| np_nil : nprefix [] 0
| np_unit s v g w u m : nprefix s v -> g <> [] -> group g w -> large_unit u m -> nprefix (s ++ g ++ [u]) (v + w * m).
Lemma nprefix_numeral s v : nprefix s v -> forall r w, numeral r w -> exists v', numeral (s ++ r) v' /\ (v' == v + w)%Q.
Proof.
  induction 1 as [|s v g x u m N IH NE G U]; intros r w R.
  - exists w. split; [exact R|ring].
  - destruct (IH (g ++ u :: r) (x * m + w)%Q) as (v' & K & E); [apply numeral_unit; auto|].
    exists v'. rewrite <- !app_assoc. split; [exact K|]. rewrite E. ring.
Qed.

(** ** The number being read *)
(** [reading d n]: the StringNumber [n] holds the digits and point [d] read so far *)
Definition reading (d : text) (n : strnum) : Prop :=
  sn_scale n = 0 /\
  ((sn_point n = -1 /\ Forall2 same_digit d (sio_buf (sn_sig n))) \/
   (exists i f, d = i ++ point_char :: f /\ i <> [] /\ Forall2 same_digit (i ++ f) (sio_buf (sn_sig n))
                /\ sn_point n = Z.of_nat (length i))).

Lemma Forall2_len {A B} (R : A -> B -> Prop) l m : Forall2 R l m -> length l = length m.
Proof. induction 1; cbn; congruence. Qed.
Lemma reading_empty d n : reading d n -> (d = [] <-> empty n).
Proof.
  intros (_ & [(_ & F)|(i & f & -> & N & F & _)]); unfold empty.
  - apply Forall2_len in F. destruct d, (sio_buf (sn_sig n)); cbn in F; split; intros; try congruence; discriminate.
  - apply Forall2_len in F. split; intros E.
    + destruct i; discriminate.
    + rewrite E in F. destruct i; [congruence|discriminate].
Qed.
Lemma reading_decimal d n : reading d n -> d <> [] -> exists v, decimal d v /\ (v == qval n)%Q.
Proof.
  intros (SC & [(P & F)|(i & f & -> & N & F & P)]) ND.
  - exists (inject_Z (ival (sio_buf (sn_sig n)))). split.
    + econstructor. now apply digits_of.
    + unfold qval, frac. rewrite P, SC. change (-1 <? 0) with true. cbn iota. change (p10 (0 - 0)) with 1%Q. ring.
  - apply Forall2_app_inv_l in F. destruct F as (b1 & b2 & F1 & F2 & E). pose proof (Forall2_len _ _ _ F1) as L1.
    destruct f as [|c f].
    + inversion F2; subst. rewrite app_nil_r in E. exists (inject_Z (ival b1)). split.
      * eapply decimal_bare_point. now apply digits_of.
      * unfold qval, frac, slen. rewrite P, SC, E, L1. destruct (Z.ltb_spec (Z.of_nat (length b1)) 0); [lia|].
        rewrite Z.sub_diag. change (p10 (0 - 0)) with 1%Q. ring.
    + eexists. split.
      * eapply decimal_point; apply digits_of; eauto; discriminate.
      * unfold qval, frac, slen. rewrite P, SC, E, L1. destruct (Z.ltb_spec (Z.of_nat (length b1)) 0); [lia|].
        rewrite ival_app, inject_Z_plus, inject_Z_mult, app_length.
        match goal with |- context [p10 ?x] => replace x with (- Z.of_nat (length b2)) by lia end.
        rewrite <- !p10_nat.
        assert (K : (p10 (Z.of_nat (length b2)) * p10 (- Z.of_nat (length b2)) == 1)%Q).
        { rewrite <- p10_plus. rewrite Z.add_opp_diag_r. reflexivity. }
        assert (NZ : ~ (p10 (Z.of_nat (length b2)) == 0)%Q).
        { intros Z0. rewrite Z0 in K. rewrite Qmult_0_l in K. discriminate. }
        assert (K2 : (p10 (- Z.of_nat (length b2)) == / p10 (Z.of_nat (length b2)))%Q).
        { apply (Qmult_inj_l _ _ (p10 (Z.of_nat (length b2))) NZ). rewrite K, Qmult_inv_r; [reflexivity|exact NZ]. }
        rewrite K2. field. exact NZ.
Qed.

Lemma reading_clear n : reading [] (sn_clear n).
Proof. split; [reflexivity|]. left. split; [reflexivity|]. constructor. Qed.

(** ** The invariant of the parser *)
Record inv (p : parser) (s : text) : Prop := {
  inv_wt : wf (p_total p);
  inv_ws : wf (p_sub p);
  inv_wm : wf (p_tmp p);
  inv_read : exists T S D vt vs, s = T ++ S ++ D /\ nprefix T vt /\ gprefix S vs /\ reading D (p_tmp p)
     /\ (p_first p = true <-> D = []) /\ (qval (p_total p) == vt)%Q /\ (qval (p_sub p) == vs)%Q
     /\ (empty (p_sub p) <-> S = []);
}.

Lemma inv_new : inv p_new [].
Proof.
  constructor; try apply clear_wf.
  exists [], [], [], 0%Q, 0%Q. split; [reflexivity|]. split; [constructor|]. split; [constructor|]. split; [apply (reading_clear sn_new)|].
  cbn. unfold empty. cbn. repeat split; auto.
Qed.

Lemma decimal_ne d v : decimal d v -> d <> [].
Proof.
  assert (K : forall s v n, digits s v n -> s <> []).
  { induction 1; [discriminate|]. intros E. apply app_eq_nil in E. destruct E; discriminate. }
  destruct 1; eauto; intros E; apply app_eq_nil in E; destruct E; discriminate.
Qed.

(** the last group, closed *)
Lemma close_group S D vs n : gprefix S vs -> reading D n -> exists v, group (S ++ D) v /\ (v == vs + qval n)%Q.
Proof.
  intros G R. destruct D as [|c D].
  - destruct (gprefix_group S vs G [] 0%Q group_nil) as (v & K & E). exists v. split; [exact K|].
    rewrite (empty_qval n); [exact E|]. now apply (reading_empty [] n R).
  - destruct (reading_decimal _ n R) as (w & K & E); [discriminate|].
    destruct (gprefix_group S vs G (c :: D) w (group_ones _ _ K)) as (v & K' & E'). exists v. split; [exact K'|].
    rewrite E', E. reflexivity.
Qed.

Lemma wf_append n i : wf n -> 0 <= i <= 9 -> wf (sn_append n i).
Proof.
  intros W I. unfold sn_append. rewrite write_end by apply W.
  constructor; cbn [sn_sig sn_scale sn_point sio_buf sio_pos]; try apply W; auto.
  - apply Forall_app. split; [apply W|]. constructor; [unfold adig; lia|constructor].
  - unfold slen. cbn [sn_sig sio_buf]. rewrite app_length. destruct (wf_point n W) as [P|P]; [now left|right].
    unfold slen in P. lia.
Qed.
Lemma wf_shift n i : wf n -> 0 <= i -> wf (sn_shift_scale n i).
Proof.
  intros W I. pose proof (wf_scale n W). unfold sn_shift_scale. destruct (sn_is_zero n) eqn:Z.
  - rewrite write_end by apply W. constructor; cbn; auto; [|lia|].
    + apply Forall_app. split; [apply W|]. constructor; [unfold adig; lia|constructor].
    + unfold slen. cbn. rewrite app_length. destruct (wf_point n W) as [P|P]; [now left|right].
      unfold slen in P. lia.
  - constructor; cbn; try apply W. lia.
Qed.
Lemma shift_val n i : wf n -> ~ empty n -> (qval (sn_shift_scale n i) == qval n * p10 i)%Q.
Proof.
  intros W N. unfold sn_shift_scale. rewrite (proj2 (wf_not_zero n W) N). unfold qval. cbn.
  rewrite <- Qmult_assoc, <- p10_plus. apply Qmult_comp; [reflexivity|].
  match goal with |- (p10 ?u == p10 ?v)%Q => assert (X : u = v); [|rewrite X; reflexivity] end.
  unfold frac, slen. cbn. lia.
Qed.
Lemma shift_val_one n i : wf n -> empty n -> sn_point n = -1 -> sn_scale n = 0 -> (qval (sn_shift_scale n i) == p10 i)%Q.
Proof.
  intros W N P S0. unfold sn_shift_scale. rewrite (proj2 (wf_is_zero n W) N). rewrite write_end by apply W.
  unfold empty in N. unfold qval, frac. cbn. rewrite N, P, S0. cbn [app]. change (-1 <? 0) with true.
  change (ival_acc 0 [49]) with 1. cbn iota. rewrite Z.sub_0_r, Z.add_0_l. change (inject_Z 1) with 1%Q. ring.
Qed.
Lemma shift_ne n i : wf n -> ~ empty (sn_shift_scale n i).
Proof.
  intros W. unfold sn_shift_scale, empty. destruct (sn_is_zero n) eqn:Z; cbn [sn_sig].
  - rewrite write_end by apply W. cbn. intros E. apply app_eq_nil in E. destruct E; discriminate.
  - now apply (wf_not_zero n W).
Qed.

Definition comma_free1 (c : Z) : text := if c =? comma_char then [] else [c].

Lemma append_inv p s c p' : inv p s -> p_append p c = (true, p') -> inv p' (s ++ comma_free1 c).
Proof.
  intros [Wt Ws Wm (T & S & D & vt & vs & -> & HT & HS & HD & HF & Et & Es & ES)]. unfold p_append, comma_free1.
  destruct (Z.eqb_spec c 46) as [->|N46].
  { change (46 =? comma_char) with false. cbn [p_first p_comma p_tmp p_digits p_hanging p_error p_total p_sub].
    destruct (p_first p) eqn:F; [discriminate|]. destruct (p_comma p && _); [discriminate|].
    unfold sn_set_point. destruct (sn_scale (p_tmp p) =? 0) eqn:S0; [|discriminate].
    destruct (Z.ltb_spec (sn_point (p_tmp p)) 0) as [P0|P0]; [|discriminate]. cbn [andb negb]. intros [= <-].
    assert (ND : D <> []) by (intros K; apply HF in K; congruence).
    constructor; cbn; auto.
    - assert (NE : ~ empty (p_tmp p)) by (rewrite <- (reading_empty D _ HD); exact ND).
      constructor; cbn; try apply Wm. right. rewrite (wf_tell _ Wm). unfold slen. cbn. unfold empty in NE.
      destruct (sio_buf (sn_sig (p_tmp p))); [congruence|cbn [length]; lia].
    - exists T, S, (D ++ [46]), vt, vs. split; [now rewrite <- !app_assoc|]. repeat split; auto; try apply HF; try apply ES.
      + cbn. apply Z.eqb_eq in S0. exact S0.
      + right. exists D, []. cbn. split; [reflexivity|]. split; [exact ND|]. rewrite app_nil_r.
        destruct HD as (_ & [(P & F2)|(i & f & _ & _ & _ & P)]); [|lia]. split; [exact F2|].
        rewrite (wf_tell _ Wm). unfold slen. now rewrite (Forall2_len _ _ _ F2).
      + congruence.
      + intros E. apply app_eq_nil in E. destruct E; discriminate. }
  destruct (Z.eqb_spec c 44) as [->|N44].
  { change (44 =? comma_char) with true. cbn iota. rewrite app_nil_r. destruct (negb (check_comma p)); [discriminate|]. intros [= <-].
    constructor; cbn; auto. exists T, S, D, vt, vs. auto 10. }
  change comma_char with 44. destruct (Z.eqb_spec c 44) as [|_]; [congruence|].
  destruct (char_to_num c) as [num|] eqn:C; [|discriminate].
  destruct (is_small_unit num) eqn:SU.
  { destruct (char_to_num_small c num C SU) as (m & U & Em & Pm).
    destruct (sn_add (p_sub p) (sn_shift_scale (p_tmp p) (- num))) as [[ok sub] tmp] eqn:A.
    destruct ok; cbn [negb]; [|discriminate]. intros [= <-].
    pose proof (wf_shift (p_tmp p) (- num) Wm Pm) as Wx.
    destruct (add_wf _ _ _ _ _ Ws Wx A) as (Wsub & _ & _ & _). destruct (add_val _ _ _ _ Ws Wx A) as (V & EE).
    constructor; cbn [p_total p_sub p_tmp]; auto; [apply clear_wf|].
    exists T, (S ++ D ++ [c]), [], vt.
    assert (K : exists v, gprefix (S ++ D ++ [c]) v /\ (qval sub == v)%Q).
    { destruct D as [|d D].
      - exists (vs + m)%Q. split; [now constructor|]. rewrite V, Es, Em. apply Qplus_comp; [reflexivity|].
        destruct HD as (SC & [(P & F2)|(i & f & K & _)]); [|destruct i; discriminate].
        apply shift_val_one; auto. unfold empty. now inversion F2.
      - destruct (reading_decimal _ _ HD) as (w & K & E); [discriminate|].
        exists (vs + w * m)%Q. split; [now constructor|]. rewrite V, Es, Em, E. apply Qplus_comp; [reflexivity|].
        apply shift_val; auto. rewrite <- (reading_empty _ _ HD). discriminate. }
    destruct K as (v & G & Ev). exists v. split; [now rewrite app_nil_r, <- !app_assoc|].
    split; [exact HT|]. split; [exact G|]. split; [apply reading_clear|]. split; [cbn; tauto|]. split; [exact Et|]. split; [exact Ev|].
    split.
    - intros E. apply EE in E. destruct E as [_ E]. exfalso. revert E. now apply shift_ne.
    - intros E. apply app_eq_nil in E. destruct E as [_ E]. apply app_eq_nil in E. destruct E; discriminate. }
  destruct (is_large_unit num) eqn:LU.
  { destruct (char_to_num_large c num C LU) as (m & U & Em & Pm).
    destruct (sn_add (p_sub p) (p_tmp p)) as [[ok sub] tmp] eqn:A. destruct ok; cbn [negb orb]; [|discriminate].
    destruct (sn_is_zero sub) eqn:Z; [discriminate|].
    destruct (add_wf _ _ _ _ _ Ws Wm A) as (Wsub & Wtmp & _ & _). destruct (add_val _ _ _ _ Ws Wm A) as (V & EE).
    pose proof (wf_shift sub (- num) Wsub Pm) as Wx. apply (wf_not_zero _ Wsub) in Z.
    destruct (sn_add (p_total p) (sn_shift_scale sub (- num))) as [[ok total] sub'] eqn:B. destruct ok; cbn [negb]; [|discriminate].
    intros [= <-].
    destruct (add_wf _ _ _ _ _ Wt Wx B) as (Wtot & _ & _ & _). destruct (add_val _ _ _ _ Wt Wx B) as (V2 & _).
    constructor; cbn [p_total p_sub p_tmp]; auto; try apply clear_wf.
    destruct (close_group S D vs (p_tmp p) HS HD) as (w & G & Ew).
    exists (T ++ (S ++ D) ++ [c]), [], [], (vt + w * m)%Q, 0%Q. split; [now rewrite app_nil_r, <- !app_assoc|].
    split.
    { constructor; auto. intros E. apply Z, EE. apply app_eq_nil in E. destruct E as [-> ->].
      split; [now apply ES|]. now apply (reading_empty _ _ HD). }
    split; [constructor|]. split; [apply reading_clear|]. split; [cbn; tauto|]. split.
    { rewrite V2, Et, shift_val by auto. rewrite V, Es, Ew, Em. reflexivity. }
    split; [reflexivity|]. cbn. unfold empty. cbn. tauto. }
  intros [= <-]. destruct (char_to_num_digit c num C SU LU) as (DC & R).
  constructor; cbn [p_total p_sub p_tmp]; auto; [now apply wf_append|].
  exists T, S, (D ++ [c]), vt, vs. split; [now rewrite <- !app_assoc|]. repeat split; auto; try apply ES.
  - unfold sn_append. cbn. apply HD.
  - unfold sn_append. cbn [sn_sig sn_point sn_scale]. rewrite write_end by apply Wm. cbn [sio_buf].
    assert (SD : Forall2 same_digit [c] [48 + num]).
    { constructor; [|constructor]. unfold same_digit. now replace (48 + num - 48) with num by lia. }
    destruct HD as (_ & [(P & F2)|(i & f & -> & N & F2 & P)]).
    + left. split; [exact P|]. now apply Forall2_app.
    + right. exists i, (f ++ [c]). rewrite <- app_assoc. split; [reflexivity|]. split; [exact N|]. split; [|exact P].
      rewrite app_assoc. now apply Forall2_app.
  - discriminate.
  - intros E. apply app_eq_nil in E. destruct E; discriminate.
Qed.

Lemma without_commas_app a b : without_commas (a ++ b) = without_commas a ++ without_commas b.
Proof. apply filter_app. Qed.
Lemma feed_inv s : forall p t p', inv p t -> p_feed p s = (true, p') -> inv p' (t ++ without_commas s).
Proof.
  induction s as [|c s IH]; intros p t p' I; cbn [p_feed].
  - intros [= <-]. cbn. now rewrite app_nil_r.
  - destruct (p_append p c) as [ok p1] eqn:A. destruct ok; [|discriminate]. intros F.
    pose proof (append_inv _ _ _ _ I A) as I1. specialize (IH _ _ _ I1 F).
    change (without_commas (c :: s)) with (if negb (c =? comma_char) then c :: without_commas s else without_commas s).
    unfold comma_free1 in IH. destruct (c =? comma_char); cbn [negb].
    + now rewrite app_nil_r in IH.
    + now rewrite <- app_assoc in IH.
Qed.

Lemma done_inv p s p' : inv p s -> p_done p = (true, p') -> wf (p_total p') /\ exists v, numeral s v /\ (v == qval (p_total p'))%Q.
Proof.
  intros [Wt Ws Wm (T & S & D & vt & vs & -> & HT & HS & HD & HF & Et & Es & ES)]. unfold p_done.
  destruct (sn_add (p_sub p) (p_tmp p)) as [[ok sub] tmp] eqn:A.
  destruct (add_wf _ _ _ _ _ Ws Wm A) as (Wsub & Wtmp & _ & _).
  destruct ok.
  2:{ cbn. destruct (p_hanging p); [discriminate|]. destruct (_ && _); discriminate. }
  destruct (add_val _ _ _ _ Ws Wm A) as (V & EE).
  destruct (sn_add (p_total p) sub) as [[ok total] sub'] eqn:B. cbn.
  destruct (p_hanging p); [discriminate|]. destruct (_ && _); [discriminate|]. intros [= -> <-].
  destruct (add_wf _ _ _ _ _ Wt Wsub B) as (Wtot & _ & _ & _). destruct (add_val _ _ _ _ Wt Wsub B) as (V2 & _).
  cbn. split; [exact Wtot|].
  destruct (close_group S D vs (p_tmp p) HS HD) as (w & G & Ew).
  destruct (nprefix_numeral T vt HT (S ++ D) w (numeral_group _ _ G)) as (v & N & Ev).
  exists v. split; [exact N|]. rewrite Ev, V2, V, Et, Es, Ew. reflexivity.
Qed.

(** ** The string of a number *)
Lemma insert_spec s idx x : (idx <= length (sio_buf s))%nat ->
  sio_insert s idx [x] = SIO (firstn idx (sio_buf s) ++ x :: skipn idx (sio_buf s)) (S (length (sio_buf s))).
Proof.
  intros H. destruct s as [b q]. unfold sio_insert, sio_seek, sio_write. cbn [sio_buf sio_pos] in *. cbn [length].
  assert (L1 : length (firstn idx b) = idx) by (apply firstn_length_le; exact H).
  replace (idx - length b)%nat with 0%nat by lia. cbn [repeat app].
  set (w := firstn idx b ++ x :: skipn (idx + 1) b).
  assert (Hw : firstn (idx + 1) w = firstn idx b ++ [x]).
  { unfold w. change (x :: skipn (idx + 1) b) with ([x] ++ skipn (idx + 1) b). rewrite app_assoc, firstn_app.
    rewrite firstn_all2 by (rewrite app_length, L1; cbn; lia). rewrite app_length, L1. cbn [length].
    rewrite Nat.sub_diag, firstn_O, app_nil_r. reflexivity. }
  assert (Lw : (length w = idx + S (length b - (idx + 1)))%nat).
  { unfold w. rewrite app_length, L1. cbn [length]. now rewrite skipn_length. }
  rewrite Hw. replace (idx + 1 - length w)%nat with 0%nat by lia. cbn [repeat app].
  rewrite (skipn_all2 w) by (rewrite skipn_length; lia). rewrite app_nil_r, <- app_assoc. cbn [app].
  f_equal. rewrite skipn_length. lia.
Qed.

Lemma strip_spec A x k : x <> 48 -> strip_zeros (A ++ x :: repeat 48 k) (length A + k) = Ok (length A).
Proof.
  intros N. induction k as [|k IH].
  - rewrite Nat.add_0_r. cbn [repeat].
    assert (E : nth_error (A ++ [x]) (length A) = Some x) by (rewrite nth_error_app2, Nat.sub_diag by lia; reflexivity).
    destruct (length A) as [|j]; cbn [strip_zeros]; rewrite E;
      destruct x as [|q|q]; try reflexivity;
      repeat (destruct q as [q|q|]; try reflexivity); congruence.
  - assert (G : forall l m, strip_zeros (A ++ x :: repeat 48 k ++ l) (length A + k - m) = strip_zeros (A ++ x :: repeat 48 k) (length A + k - m)).
    { intros l m. generalize (Nat.le_sub_l (length A + k) m). generalize (length A + k - m)%nat. clear IH.
      induction n as [|n IHn]; intros L; cbn [strip_zeros].
      - replace (nth_error (A ++ x :: repeat 48 k ++ l) 0) with (nth_error (A ++ x :: repeat 48 k) 0); [reflexivity|].
        destruct A; reflexivity.
      - replace (nth_error (A ++ x :: repeat 48 k ++ l) (S n)) with (nth_error (A ++ x :: repeat 48 k) (S n)).
        + rewrite IHn by lia. reflexivity.
        + replace (A ++ x :: repeat 48 k ++ l) with ((A ++ x :: repeat 48 k) ++ l) by (rewrite <- app_assoc; reflexivity).
          symmetry. apply nth_error_app1. rewrite app_length. cbn [length]. rewrite repeat_length. lia. }
    replace (length A + S k)%nat with (S (length A + k)) by lia. cbn [strip_zeros].
    replace (nth_error (A ++ x :: repeat 48 (S k)) (S (length A + k))) with (Some 48).
    + replace (repeat 48 (S k)) with (repeat 48 k ++ [48]) by (symmetry; apply repeat_cons).
      specialize (G [48] 0%nat). rewrite Nat.sub_0_r in G. rewrite G. exact IH.
    + symmetry. rewrite nth_error_app2 by lia. replace (S (length A + k) - length A)%nat with (S k) by lia.
      cbn [nth_error]. apply (nth_error_repeat 48). cbn. lia.
Qed.

Lemma trailing_zeros (l : text) : exists h k, l = h ++ repeat 48 k /\ (h = [] \/ exists h' x, h = h' ++ [x] /\ x <> 48).
Proof.
  induction l as [|c l IH] using rev_ind.
  - exists [], 0%nat. auto.
  - destruct (Z.eq_dec c 48) as [->|N].
    + destruct IH as (h & k & -> & H). exists h, (S k). split; [|exact H].
      rewrite <- app_assoc. f_equal. symmetry. apply repeat_cons.
    + exists (l ++ [c]), 0%nat. cbn. rewrite app_nil_r. split; [reflexivity|]. right. eauto.
Qed.

Lemma adig_same l : Forall adig l -> Forall2 same_digit l l.
Proof.
  induction 1 as [|c l H _ IH]; constructor; auto. unfold same_digit, adig in *.
  apply dc_ascii; lia.
Qed.

Lemma p10_inv k : (p10 (- Z.of_nat k) == / inject_Z (10 ^ Z.of_nat k))%Q /\ ~ (inject_Z (10 ^ Z.of_nat k) == 0)%Q.
Proof.
  rewrite <- p10_nat.
  assert (K : (p10 (Z.of_nat k) * p10 (- Z.of_nat k) == 1)%Q).
  { rewrite <- p10_plus. rewrite Z.add_opp_diag_r. reflexivity. }
  assert (NZ : ~ (p10 (Z.of_nat k) == 0)%Q). { intros Z0. rewrite Z0 in K. rewrite Qmult_0_l in K. discriminate. }
  split; [|exact NZ]. apply (Qmult_inj_l _ _ (p10 (Z.of_nat k)) NZ). rewrite K, Qmult_inv_r; [reflexivity|exact NZ].
Qed.

Lemma str_spec n : wf n -> exists out n' v, sn_str n = Ok (out, n') /\ canonical out /\ decimal out v /\ (v == qval n)%Q.
Proof.
  intros W. unfold sn_str. destruct (sn_is_zero n) eqn:Z.
  { apply (wf_is_zero n W) in Z. exists [48], n, (inject_Z 0). split; [reflexivity|]. split; [|split].
    - left. split; [discriminate|]. constructor; [lia|constructor].
    - apply decimal_int with (n := 1%nat). constructor. apply dc_ascii; lia.
    - now rewrite (empty_qval n Z). }
  apply (wf_not_zero n W) in Z.
  destruct (normalize_spec n W) as (W1 & V1 & N1). pose proof (normalize_buf n) as B1.
  unfold empty in Z. rewrite <- B1 in Z. set (m := sn_normalize n) in *.
  pose proof (wf_scale m W1) as SC.
  destruct (Z.ltb_spec 0 (sn_scale m)) as [L|L].
  { rewrite fill_zero_buf by (auto; lia). cbn. eexists _, _, _. split; [reflexivity|].
    assert (FD : Forall adig (sio_buf (sn_sig m) ++ repeat 48 (Z.to_nat (sn_scale m)))).
    { apply Forall_app. split; [apply W1|apply adig_zeros]. }
    assert (NE : sio_buf (sn_sig m) ++ repeat 48 (Z.to_nat (sn_scale m)) <> []).
    { intros E. apply app_eq_nil in E. tauto. }
    split; [left; split; [exact NE|exact FD]|]. split.
    - eapply decimal_int. apply digits_of; [|exact NE]. apply adig_same, FD.
    - rewrite <- V1. rewrite ival_app, ival_zeros, repeat_length, Z.add_0_r, inject_Z_mult, <- p10_nat, Z2Nat.id by lia.
      unfold qval, frac. destruct (Z.ltb_spec (sn_point m) 0) as [P|P]; [|specialize (N1 P); lia].
      now rewrite Z.sub_0_r. }
  assert (S0 : sn_scale m = 0) by lia.
  destruct (Z.leb_spec 0 (sn_point m)) as [P|P].
  2:{ eexists _, _, _. split; [reflexivity|]. split; [left; split; [exact Z|apply W1]|]. split.
      - eapply decimal_int. apply digits_of; [|exact Z]. apply adig_same, W1.
      - rewrite <- V1. unfold qval, frac. destruct (Z.ltb_spec (sn_point m) 0) as [P2|P2]; [|lia].
        rewrite S0. change (p10 (0 - 0)) with 1%Q. ring. }
  destruct (wf_point m W1) as [P1|P1]; [lia|].
  set (b := sio_buf (sn_sig m)) in *. assert (PL : (1 <= Z.to_nat (sn_point m) <= length b)%nat) by (unfold slen in P1; fold b in P1; lia).
  destruct (Z.eqb_spec (sn_point m) 0) as [P0|P0]; [lia|].
  rewrite (insert_spec (sn_sig m) (Z.to_nat (sn_point m)) 46) by (fold b; lia). fold b.
  cbn [sio_buf sio_pos].
  set (I := firstn (Z.to_nat (sn_point m)) b). set (F := skipn (Z.to_nat (sn_point m)) b).
  assert (EB : b = I ++ F) by (symmetry; apply firstn_skipn).
  assert (LI : length I = Z.to_nat (sn_point m)) by (apply firstn_length_le; lia).
  pose proof (wf_dig m W1) as DB. fold b in DB. rewrite EB in DB. apply Forall_app in DB. destruct DB as [DI DF].
  assert (NI : I <> []) by (intros E; rewrite E in LI; cbn in LI; lia).
  assert (LB : length b = (length I + length F)%nat) by (rewrite EB, app_length; reflexivity).
  assert (QV : (qval n == inject_Z (ival I) + inject_Z (ival F) / inject_Z (10 ^ Z.of_nat (length F)))%Q).
  { rewrite <- V1. unfold qval, frac, slen. fold b. destruct (Z.ltb_spec (sn_point m) 0) as [P2|P2]; [lia|].
    rewrite S0. replace (0 - (Z.of_nat (length b) - sn_point m)) with (- Z.of_nat (length F)) by lia.
    rewrite EB, ival_app, inject_Z_plus, inject_Z_mult. destruct (p10_inv (length F)) as [K NZ]. rewrite K. field. exact NZ. }
  destruct (trailing_zeros F) as (h & k & EF & [->|(h' & x & -> & Nx)]).
  - cbn [app] in EF. rewrite EF. replace (S (length b) - 1)%nat with (length I + k)%nat
      by (rewrite LB, EF, repeat_length; lia).
    rewrite strip_spec by discriminate. cbn [bind]. unfold sio_truncate, sio_seek, sio_read1. cbn [sio_buf sio_pos].
    replace (length I + 1)%nat with (length (I ++ [46])) by (rewrite app_length; reflexivity).
    replace (I ++ 46 :: repeat 48 k) with ((I ++ [46]) ++ repeat 48 k) by (rewrite <- app_assoc; reflexivity).
    rewrite firstn_app, Nat.sub_diag, firstn_all, firstn_O, app_nil_r.
    rewrite nth_error_app2, Nat.sub_diag by lia. cbn [nth_error]. change (list_eqb Z.eqb [46] [46]) with true. cbn [sio_buf sio_pos].
    rewrite firstn_app, Nat.sub_diag, firstn_all, firstn_O, app_nil_r.
    eexists _, _, _. split; [reflexivity|]. split; [left; split; [exact NI|exact DI]|]. split.
    + eapply decimal_int. apply digits_of; [|exact NI]. apply adig_same, DI.
    + rewrite QV, EF, ival_zeros. change (inject_Z 0) with 0%Q. unfold Qdiv.
      ring.
  - assert (DX : Forall adig (h' ++ [x])) by (rewrite EF in DF; apply Forall_app in DF; apply DF).
    assert (DX2 : adig x) by (apply Forall_app in DX; destruct DX as [_ DX]; now inversion DX).
    rewrite EF. replace (S (length b) - 1)%nat with (length (I ++ 46%Z :: h') + k)%nat
      by (rewrite LB, EF, !app_length; cbn [length]; rewrite repeat_length; lia).
    replace (I ++ 46 :: (h' ++ [x]) ++ repeat 48 k) with ((I ++ 46 :: h') ++ x :: repeat 48 k)
      by (rewrite <- ?app_assoc; cbn [app]; rewrite <- ?app_assoc; reflexivity).
    rewrite strip_spec by exact Nx. cbn [bind]. unfold sio_truncate, sio_seek, sio_read1. cbn [sio_buf sio_pos].
    set (A := I ++ 46 :: h').
    replace (length A + 1)%nat with (length (A ++ [x])) by (rewrite app_length; reflexivity).
    replace (A ++ x :: repeat 48 k) with ((A ++ [x]) ++ repeat 48 k) by (rewrite <- app_assoc; reflexivity).
    rewrite firstn_app, Nat.sub_diag, firstn_all, firstn_O, app_nil_r.
    rewrite nth_error_app2, Nat.sub_diag by lia. cbn [nth_error]. cbn [sio_buf sio_pos].
    assert (X46 : x <> 46) by (unfold adig in DX2; lia).
    assert (ER : list_eqb Z.eqb [x] [46] = false).
    { cbn [list_eqb]. destruct (Z.eqb_spec x 46); [congruence|reflexivity]. }
    rewrite ER.
    eexists _, _, (inject_Z (ival I) + inject_Z (ival (h' ++ [x])) / inject_Z (10 ^ Z.of_nat (length (h' ++ [x]))))%Q.
    split; [reflexivity|]. unfold A. split.
    { right. exists I, h', x. rewrite <- app_assoc. split; [reflexivity|]. split; [split; [exact NI|exact DI]|].
      apply Forall_app in DX. split; [apply DX|]. unfold adig in DX2. lia. }
    split.
    { rewrite <- app_assoc. eapply decimal_point; apply digits_of; eauto; try apply adig_same; auto.
      intros E. apply app_eq_nil in E. destruct E; discriminate. }
    rewrite QV, EF. rewrite (ival_app (h' ++ [x])), ival_zeros, Z.add_0_r, repeat_length, inject_Z_mult.
    rewrite (app_length (h' ++ [x]) (repeat 48 k)), repeat_length, Nat2Z.inj_add, Z.pow_add_r, inject_Z_mult by lia.
    destruct (p10_inv (length (h' ++ [x]))) as [_ NZ1]. destruct (p10_inv k) as [_ NZ2]. 
    field. split; assumption.
Qed.
