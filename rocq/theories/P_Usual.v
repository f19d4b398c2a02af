(** The numerals that the parser accepts. *)
From Coq Require Import List ZArith QArith Lia Bool Arith.
From Verif Require Import Base M_NumericParser S_Numeric S_Usual P_Numeric P_NumericComma.
Import ListNotations.
Open Scope Z_scope.

Lemma small_place_num u k : small_place u k -> char_to_num u = Some (- Z.of_nat k) /\ is_small_unit (- Z.of_nat k) = true /\ u <> 46 /\ u <> 44.
Proof.
  intros H. inversion H as [E1 E2|E1 E2|E1 E2]; subst.
  - assert (Z.of_nat k = 1). { destruct (Z.eq_dec (Z.of_nat k) 1) as [|N]; [assumption|exfalso].
      assert (10 ^ Z.of_nat k = 10) by (unfold inject_Z in E2; congruence).
      assert (Z.of_nat k = 0 \/ 2 <= Z.of_nat k) as [K|K] by lia; [rewrite K in H0; cbn in H0; lia|].
      assert (10 ^ 2 <= 10 ^ Z.of_nat k) by (apply Z.pow_le_mono_r; lia). lia. }
    rewrite H0. repeat split; (reflexivity || discriminate).
  - assert (Z.of_nat k = 2). { destruct (Z.eq_dec (Z.of_nat k) 2) as [|N]; [assumption|exfalso].
      assert (10 ^ Z.of_nat k = 100) by (unfold inject_Z in E2; congruence).
      assert (Z.of_nat k <= 1 \/ 3 <= Z.of_nat k) as [K|K] by lia.
      - assert (10 ^ Z.of_nat k <= 10 ^ 1) by (apply Z.pow_le_mono_r; lia). lia.
      - assert (10 ^ 3 <= 10 ^ Z.of_nat k) by (apply Z.pow_le_mono_r; lia). lia. }
    rewrite H0. repeat split; (reflexivity || discriminate).
  - assert (Z.of_nat k = 3). { destruct (Z.eq_dec (Z.of_nat k) 3) as [|N]; [assumption|exfalso].
      assert (10 ^ Z.of_nat k = 1000) by (unfold inject_Z in E2; congruence).
      assert (Z.of_nat k <= 2 \/ 4 <= Z.of_nat k) as [K|K] by lia.
      - assert (10 ^ Z.of_nat k <= 10 ^ 2) by (apply Z.pow_le_mono_r; lia). lia.
      - assert (10 ^ 4 <= 10 ^ Z.of_nat k) by (apply Z.pow_le_mono_r; lia). lia. }
    rewrite H0. repeat split; (reflexivity || discriminate).
Qed.
Lemma large_place_num u k : large_place u k -> char_to_num u = Some (- Z.of_nat k) /\ is_small_unit (- Z.of_nat k) = false /\
  is_large_unit (- Z.of_nat k) = true /\ u <> 46 /\ u <> 44.
Proof.
  assert (P : forall e, 1 <= e -> 10 ^ Z.of_nat k = 10 ^ e -> Z.of_nat k = e).
  { intros e He H. destruct (Z.eq_dec (Z.of_nat k) e) as [|N]; [assumption|exfalso].
    assert (Z.of_nat k < e \/ e < Z.of_nat k) as [K|K] by lia.
    - assert (10 ^ Z.of_nat k < 10 ^ e) by (apply Z.pow_lt_mono_r; lia). lia.
    - assert (10 ^ e < 10 ^ Z.of_nat k) by (apply Z.pow_lt_mono_r; lia). lia. }
  intros H. inversion H as [E1 E2|E1 E2|E1 E2]; subst.
  - assert (K : Z.of_nat k = 4) by (apply P; [lia|]; unfold inject_Z in E2; change (10 ^ 4) with 10000; congruence).
    rewrite K. repeat split; (reflexivity || discriminate).
  - assert (K : Z.of_nat k = 8) by (apply P; [lia|]; unfold inject_Z in E2; change (10 ^ 8) with 100000000; congruence).
    rewrite K. repeat split; (reflexivity || discriminate).
  - assert (K : Z.of_nat k = 12) by (apply P; [lia|]; unfold inject_Z in E2; change (10 ^ 12) with 1000000000000; congruence).
    rewrite K. repeat split; (reflexivity || discriminate).
Qed.

(** A number without point, and how many places it fills *)
Definition whole (n : strnum) : Prop := wf n /\ sn_point n = -1.
Definition places (n : strnum) : Z := slen n + sn_scale n.
(** there is room in [n] for a number of [r] places *)
Definition room (n : strnum) (r : Z) : Prop := whole n /\ (empty n \/ r <= sn_scale n).

Lemma whole_norm n : whole n -> sn_normalize n = n.
Proof. intros (_ & P). unfold sn_normalize. rewrite P. reflexivity. Qed.
Lemma slen_pos n : ~ empty n -> 1 <= slen n.
Proof. unfold empty, slen. destruct (sio_buf (sn_sig n)); [congruence|cbn [length]; lia]. Qed.
Lemma empty_slen n : empty n -> slen n = 0.
Proof. unfold empty, slen. intros ->. reflexivity. Qed.
Lemma empty_dec n : empty n \/ ~ empty n.
Proof. unfold empty. destruct (sio_buf (sn_sig n)); [now left|right; discriminate]. Qed.

Lemma add_room a b r : room a r -> whole b -> ~ empty b -> places b <= r ->
  exists a', sn_add a b = (true, a', b) /\ whole a' /\ ~ empty a' /\ sn_scale a' = sn_scale b /\
    (empty a -> places a' = places b) /\ (~ empty a -> places a' = places a).
Proof.
  intros ((Wa & Pa) & Ha) (Wb & Pb) Nb L. unfold sn_add. rewrite (proj2 (wf_not_zero b Wb) Nb).
  pose proof (slen_pos b Nb) as Lb. pose proof (wf_scale b Wb) as Sb.
  destruct (empty_dec a) as [Ea|Na].
  - rewrite (proj2 (wf_is_zero a Wa) Ea). rewrite write_end by apply Wa. unfold empty in Ea. rewrite Ea. cbn [app].
    eexists. split; [reflexivity|].
    assert (K : wf (StrNum (SIO (sio_buf (sn_sig b)) (length (sio_buf (sn_sig b)))) (sn_scale b) (sn_point b) (sn_allzero a))).
    { constructor; cbn; try apply Wb; auto. }
    split; [split; [exact K|exact Pb]|]. unfold places, slen, empty in *. cbn. split; [exact Nb|]. repeat split; auto. congruence.
  - rewrite (proj2 (wf_not_zero a Wa) Na). destruct Ha as [Ea|Ha]; [contradiction|].
    rewrite (whole_norm a (conj Wa Pa)). unfold sn_int_length. rewrite (whole_norm b (conj Wb Pb)). rewrite Pb. cbn [Z.leb].
    change (0 <=? -1) with false. cbn iota. rewrite (wf_tell b Wb). fold (places b).
    destruct (Z.leb_spec (places b) (sn_scale a)) as [L2|L2]; [|lia].
    rewrite fill_zero_buf by (auto; lia). cbn -[places]. rewrite write_end by reflexivity. eexists. split; [reflexivity|].
    assert (W : wf (StrNum (SIO ((sio_buf (sn_sig a) ++ repeat 48 (Z.to_nat (sn_scale a - places b))) ++ sio_buf (sn_sig b))
        (length ((sio_buf (sn_sig a) ++ repeat 48 (Z.to_nat (sn_scale a - places b))) ++ sio_buf (sn_sig b)))) (sn_scale b) (sn_point a) (sn_allzero a))).
    { constructor; cbn -[places]; auto. rewrite !Forall_app. repeat split; [apply Wa|apply adig_zeros|apply Wb]. }
    split; [split; [exact W|exact Pa]|]. split.
    { unfold empty in *. cbn -[places]. intros E. apply app_eq_nil in E as (_ & E). contradiction. }
    split; [reflexivity|]. split; [intros E; contradiction|]. intros _.
    unfold places at 1. unfold slen. cbn -[places]. rewrite !app_length, repeat_length. unfold places, slen in *. lia.
Qed.
Lemma add_empty a b : wf b -> empty b -> sn_add a b = (true, a, b).
Proof. intros W E. unfold sn_add. now rewrite (proj2 (wf_is_zero b W) E). Qed.

(** the parser before a new part *)
Record ready (p : parser) : Prop := {
  rd_comma : p_comma p = false;
  rd_hang : p_hanging p = false;
  rd_tmp : p_tmp p = StrNum (SIO [] 0) 0 (-1) true;
  rd_sub : whole (p_sub p);
  rd_total : whole (p_total p);
}.

Lemma feed_cons p c s p1 : p_append p c = (true, p1) -> p_feed p (c :: s) = p_feed p1 s.
Proof. intros E. cbn [p_feed]. now rewrite E. Qed.
Lemma feed_app_ok' s t p p1 : p_feed p s = (true, p1) -> p_feed p (s ++ t) = p_feed p1 t.
Proof.
  revert p. induction s as [|c s IH]; intros p; cbn [p_feed app].
  - now intros [= ->].
  - destruct (p_append p c) as [ok p2]. destruct ok; [|discriminate]. apply IH.
Qed.

(** digits are appended to the number being read *)
Lemma digits_read d : all_digits d -> forall p, wf (p_tmp p) -> d <> [] ->
  exists tmp, p_feed p d = (true, Parser (p_digits p + length d) false (p_comma p) false (p_error p) (p_total p) (p_sub p) tmp) /\
    wf tmp /\ sn_point tmp = sn_point (p_tmp p) /\ sn_scale tmp = sn_scale (p_tmp p) /\ slen tmp = slen (p_tmp p) + Z.of_nat (length d) /\
    (sn_allzero tmp = false <-> sn_allzero (p_tmp p) = false \/ Exists (fun c => exists x, digit_char c x /\ x <> 0) d).
Proof.
  induction d as [|c d IH]; intros Hd p W N; [congruence|]. inversion Hd as [|? ? (x & Dx) Hd']; subst.
  destruct (digit_char_num c x Dx) as (En & S1 & L1 & N46 & N44 & R).
  assert (A : p_append p c = (true, Parser (S (p_digits p)) false (p_comma p) false (p_error p) (p_total p) (p_sub p) (sn_append (p_tmp p) x))).
  { unfold p_append. destruct (Z.eqb_spec c 46); [contradiction|]. destruct (Z.eqb_spec c 44); [contradiction|]. now rewrite En, S1, L1. }
  rewrite (feed_cons _ _ _ _ A).
  assert (W2 : wf (sn_append (p_tmp p) x)) by now apply wf_append.
  assert (SL : slen (sn_append (p_tmp p) x) = slen (p_tmp p) + 1).
  { unfold sn_append, slen. cbn [sn_sig]. rewrite write_end by apply W. cbn [sio_buf]. rewrite app_length. cbn [length]. lia. }
  assert (AZ : sn_allzero (sn_append (p_tmp p) x) = false <-> sn_allzero (p_tmp p) = false \/ x <> 0).
  { unfold sn_append. cbn. destruct (Z.eqb_spec x 0); cbn; intuition (congruence || lia). }
  assert (EX : (sn_allzero (p_tmp p) = false \/ x <> 0) \/ Exists (fun c0 => exists x0, digit_char c0 x0 /\ x0 <> 0) d <->
     sn_allzero (p_tmp p) = false \/ Exists (fun c0 => exists x0, digit_char c0 x0 /\ x0 <> 0) (c :: d)).
  { split.
    - intros [[H|H]|H]; [now left| |right; now constructor 2]. right. constructor. eauto.
    - intros [H|H]; [tauto|]. inversion H as [? ? (y & Dy & Ny)|]; subst; [|tauto].
      destruct (digit_char_num c y Dy) as (Ey & _). assert (x = y) by congruence. subst. tauto. }
  destruct d as [|c2 d].
  - cbn [p_feed]. eexists. split; [do 2 f_equal; cbn; lia|]. split; [exact W2|]. cbn [length]. split; [reflexivity|]. split; [reflexivity|].
    split; [exact SL|]. rewrite <- EX, <- AZ. split; [now left|]. intros [H|H]; [exact H|inversion H].
  - destruct (IH Hd' (Parser (S (p_digits p)) false (p_comma p) false (p_error p) (p_total p) (p_sub p) (sn_append (p_tmp p) x))) as (tmp & E & Wt & P1 & P2 & P3 & P4);
      [exact W2|discriminate|]. cbn [p_tmp p_digits p_comma p_error p_total p_sub] in *.
    exists tmp. split; [rewrite E; do 2 f_equal; cbn; lia|]. split; [exact Wt|]. split; [exact P1|]. split; [exact P2|].
    split; [rewrite P3, SL; cbn [length]; lia|]. rewrite P4, AZ. exact EX.
Qed.

Lemma whole_blank : whole (StrNum (SIO [] 0) 0 (-1) true).
Proof. split; [apply (clear_wf sn_new)|reflexivity]. Qed.
Lemma empty_blank : empty (StrNum (SIO [] 0) 0 (-1) true).
Proof. reflexivity. Qed.

(** a unit after [l] digits; alone it counts as one *)
Lemma unit_read p u k l r : small_place u k -> whole (p_tmp p) -> sn_scale (p_tmp p) = 0 ->
  (empty (p_tmp p) /\ l = 1 \/ ~ empty (p_tmp p) /\ slen (p_tmp p) = l) -> room (p_sub p) r -> l + Z.of_nat k <= r ->
  exists sub, p_append p u = (true, Parser 0 true false (p_hanging p) (p_error p) (p_total p) sub (StrNum (SIO [] 0) 0 (-1) true)) /\
    room sub (Z.of_nat k) /\ ~ empty sub /\ (empty (p_sub p) -> places sub = l + Z.of_nat k) /\ (~ empty (p_sub p) -> places sub = places (p_sub p)).
Proof.
  intros U (Wt & Pt) St Hl Rm L. destruct (small_place_num u k U) as (En & S1 & N46 & N44).
  set (tmp := sn_shift_scale (p_tmp p) (Z.of_nat k)).
  assert (WT : whole tmp). { split; [apply wf_shift; [exact Wt|lia]|exact Pt]. }
  assert (NT : ~ empty tmp) by (apply shift_ne; exact Wt).
  assert (PT : places tmp = l + Z.of_nat k /\ sn_scale tmp = Z.of_nat k).
  { unfold tmp, sn_shift_scale, places, slen. cbn [sn_sig sn_scale]. rewrite St. split; [|lia]. destruct Hl as [(E & ->)|(E & <-)].
    - rewrite (proj2 (wf_is_zero _ Wt) E). rewrite write_end by apply Wt. unfold empty in E. rewrite E. cbn [app sio_buf length]. lia.
    - rewrite (proj2 (wf_not_zero _ Wt) E). unfold slen. lia. }
  destruct PT as (PT & ST).
  destruct (add_room (p_sub p) tmp r Rm WT NT ltac:(lia)) as (sub & Ea & Ws & Ns & Ss & P1 & P2).
  exists sub. split.
  - unfold p_append. destruct (Z.eqb_spec u 46); [contradiction|]. destruct (Z.eqb_spec u 44); [contradiction|]. rewrite En, S1.
    rewrite Z.opp_involutive. fold tmp. rewrite Ea. reflexivity.
  - split; [split; [exact Ws|right; lia]|]. split; [exact Ns|]. rewrite <- PT. auto.
Qed.

(** what is left after a part: the numbers can be put together *)
Record part (p : parser) (s : text) (w : Z) (p' : parser) : Prop := {
  pt_feed : p_feed p s = (true, p');
  pt_comma : p_comma p' = false;
  pt_hang : p_hanging p' = false;
  pt_total : p_total p' = p_total p;
  pt_tmp : whole (p_tmp p') /\ sn_scale (p_tmp p') = 0;
  pt_first : p_first p' = false -> ~ empty (p_tmp p');
  pt_digit : (exists c s0 d, s = s0 ++ [c] /\ digit_char c d) -> p_first p' = false;
  pt_room : room (p_sub p') (slen (p_tmp p'));
  pt_small : (empty (p_sub p') -> slen (p_tmp p') <= w) /\ (~ empty (p_sub p') -> places (p_sub p') <= w);
  pt_empty : empty (p_sub p') /\ empty (p_tmp p') <-> s = [] /\ empty (p_sub p);
}.

Lemma fits_read r s : fits r s -> forall p w, ready p -> room (p_sub p) (Z.of_nat r) ->
  (empty (p_sub p) -> Z.of_nat r <= w) -> (~ empty (p_sub p) -> places (p_sub p) <= w) -> (p_first p = true) ->
  exists p', part p s w p'.
Proof.
  induction 1 as [r|r d Hd Hl|r u k s U Hk F IH|r d u k s Hd Nd U Hk F IH]; intros p w [Rc Rh Rt Rs Rtot] Rm W1 W2 Fi.
  - exists p. constructor; auto.
    + rewrite Rt. split; [exact whole_blank|reflexivity].
    + congruence.
    + intros (c & s0 & d & E & _). destruct s0; discriminate.
    + rewrite Rt. split; [exact Rs|]. destruct (proj2 Rm) as [E|E]; [now left|right]. unfold slen. cbn. apply (wf_scale _ (proj1 Rs)).
    + rewrite Rt. split; [|exact W2]. intros E. specialize (W1 E). unfold slen. cbn. lia.
    + rewrite Rt. split; [intros (H & _); auto|intros (_ & H); split; [exact H|reflexivity]].
  - destruct d as [|c d]; [cbn in Hl; lia|]. set (D := c :: d) in *.
    destruct (digits_read D Hd p) as (tmp & E & Wt & P1 & P2 & P3 & _); [rewrite Rt; apply whole_blank|discriminate|].
    rewrite Rt in P1, P2, P3. cbn [sn_point sn_scale] in P1, P2. unfold slen in P3 at 2. cbn [sn_sig sio_buf length] in P3.
    assert (Nt : ~ empty tmp) by (intros E0; apply empty_slen in E0; lia).
    eexists. constructor; [exact E|..]; cbn [p_comma p_hanging p_total p_tmp p_first p_sub]; auto.
    + split; [split; [exact Wt|exact P1]|exact P2].
    + rewrite P3. split; [exact Rs|]. destruct (proj2 Rm) as [E0|E0]; [now left|right]. lia.
    + rewrite P3. split; [|exact W2]. intros E0. specialize (W1 E0). lia.
    + split; [intros (_ & H); contradiction|intros (H & _); discriminate].
  - destruct (unit_read p u k 1 (Z.of_nat r) U) as (sub & Ea & Rs' & Ns & P1 & P2); auto.
    { rewrite Rt. exact whole_blank. } { now rewrite Rt. } { left. split; [rewrite Rt; exact empty_blank|reflexivity]. } { lia. }
    set (p1 := Parser 0 true false (p_hanging p) (p_error p) (p_total p) sub (StrNum (SIO [] 0) 0 (-1) true)) in *.
    destruct (IH p1 w) as (p' & Pt); auto.
    { constructor; auto. apply Rs'. }
    { intros E. contradiction. }
    { intros _. cbn [p1 p_sub]. destruct (empty_dec (p_sub p)) as [E|E]; [rewrite P1 by exact E; specialize (W1 E); lia|rewrite P2 by exact E; auto]. }
    exists p'. destruct Pt as [T1 T2 T3 T4 T5 T6 T7 T8 T9 T10]. constructor; auto.
    + rewrite (feed_cons _ _ _ _ Ea). exact T1.
    + intros (c & s0 & d & E & D). destruct s0 as [|u0 s0]; [injection E as <- ->|injection E as <- ->; eauto 6].
      exfalso. destruct (small_place_num u k U) as (En & Sm & _). destruct (digit_char_num u d D) as (En2 & Sm2 & _). congruence.
    + rewrite T10. cbn [p1 p_sub]. split; [intros (_ & H); contradiction|intros (H & _); discriminate].
  - destruct d as [|c d]; [congruence|]. set (D := c :: d) in *.
    destruct (digits_read D Hd p) as (tmp & E & Wt & P1 & P2 & P3 & _); [rewrite Rt; apply whole_blank|discriminate|].
    rewrite Rt in P1, P2, P3. cbn [sn_point sn_scale] in P1, P2. unfold slen in P3 at 2. cbn [sn_sig sio_buf length] in P3.
    assert (Nt : ~ empty tmp). { intros E0. apply empty_slen in E0. unfold D in P3. cbn [length] in P3. lia. }
    set (p0 := Parser (p_digits p + length D) false (p_comma p) false (p_error p) (p_total p) (p_sub p) tmp) in *.
    destruct (unit_read p0 u k (Z.of_nat (length D)) (Z.of_nat r) U) as (sub & Ea & Rs' & Ns & Q1 & Q2); auto.
    { split; [exact Wt|exact P1]. } { lia. }
    set (p1 := Parser 0 true false (p_hanging p0) (p_error p0) (p_total p0) sub (StrNum (SIO [] 0) 0 (-1) true)) in *.
    destruct (IH p1 w) as (p' & Pt); auto.
    { constructor; auto. apply Rs'. }
    { intros E0. contradiction. }
    { intros _. cbn [p1 p_sub]. cbn [p0 p_sub] in Q1, Q2. destruct (empty_dec (p_sub p)) as [E0|E0]; [rewrite Q1 by exact E0; specialize (W1 E0); lia|rewrite Q2 by exact E0; auto]. }
    exists p'. destruct Pt as [T1 T2 T3 T4 T5 T6 T7 T8 T9 T10]. constructor; auto.
    + rewrite (feed_app_ok' _ _ _ _ E). rewrite (feed_cons _ _ _ _ Ea). exact T1.
    + intros (c' & s0 & dd & E0 & Dc). destruct s as [|c2 s].
      * apply app_inj_tail in E0 as (_ & <-). exfalso.
        destruct (small_place_num u k U) as (En & Sm & _). destruct (digit_char_num u dd Dc) as (En2 & Sm2 & _). congruence.
      * apply T7. destruct (exists_last (l := c2 :: s)) as (s1 & z & Ez); [discriminate|]. rewrite Ez in *. exists z, s1, dd. split; [reflexivity|].
        assert (EE : (D ++ u :: s1) ++ [z] = s0 ++ [c']) by (rewrite <- E0, <- app_assoc; reflexivity).
        apply app_inj_tail in EE as (_ & ->). exact Dc.
    + rewrite T10. cbn [p1 p_sub]. split; [intros (_ & H); contradiction|intros (H & _); destruct D; discriminate].
Qed.

(** the numbers of a part put together *)
Lemma part_sum p s w p' : part p s w p' -> exists sub2, sn_add (p_sub p') (p_tmp p') = (true, sub2, p_tmp p') /\ whole sub2 /\
  (empty sub2 <-> s = [] /\ empty (p_sub p)) /\ (~ empty sub2 -> places sub2 <= w).
Proof.
  intros [T1 T2 T3 T4 (T5 & T5') T6 T7 T8 (T9 & T9') T10]. destruct (empty_dec (p_tmp p')) as [E|E].
  - rewrite (add_empty _ _ (proj1 T5) E). eexists. split; [reflexivity|]. split; [apply T8|]. split; [|exact T9'].
    rewrite <- T10. tauto.
  - destruct (add_room (p_sub p') (p_tmp p') _ T8 T5 E) as (a & Ea & Wa & Na & Sa & P1 & P2).
    { unfold places. rewrite T5'. lia. }
    exists a. split; [exact Ea|]. split; [exact Wa|]. split; [rewrite <- T10; tauto|]. intros _.
    destruct (empty_dec (p_sub p')) as [Es|Es]; [rewrite P1 by exact Es; unfold places; rewrite T5'; specialize (T9 Es); lia|rewrite P2 by exact Es; auto].
Qed.

(** the parser before a group *)
Definition blank (n : strnum) : Prop := n = StrNum (SIO [] 0) 0 (-1) true.
Lemma large_read r s : fits_large r s -> forall p, ready p -> p_first p = true -> blank (p_sub p) -> room (p_total p) (Z.of_nat r) ->
  exists q s1 w p', part q s1 w p' /\ p_feed p s = (true, p') /\ p_total q = p_total p' /\ blank (p_sub q) /\
    room (p_total p') w /\ 0 <= w /\ ((exists c s0 d, s = s0 ++ [c] /\ digit_char c d) -> exists c s0 d, s1 = s0 ++ [c] /\ digit_char c d).
Proof.
  induction 1 as [r s F|r v g u k s Ng F U Hk FL IH]; intros p Rd Fi Bs Rm.
  - destruct (fits_read r s F p (Z.of_nat r) Rd) as (p' & Pt); auto.
    { rewrite Bs. split; [exact whole_blank|left; exact empty_blank]. } { intros _. lia. } { rewrite Bs. intros H. exfalso. apply H. exact empty_blank. }
    exists p, s, (Z.of_nat r), p'. split; [exact Pt|]. split; [apply Pt|]. rewrite (pt_total _ _ _ _ Pt). repeat split; auto; try apply Rm. lia.
  - destruct (fits_read v g F p (Z.of_nat v) Rd) as (p1 & Pt); auto.
    { rewrite Bs. split; [exact whole_blank|left; exact empty_blank]. } { intros _. lia. } { rewrite Bs. intros H. exfalso. apply H. exact empty_blank. }
    destruct (part_sum _ _ _ _ Pt) as (sub2 & Ea & W2 & E2 & P2).
    assert (N2 : ~ empty sub2) by (intros H; apply E2 in H as (H & _); contradiction). specialize (P2 N2).
    destruct (large_place_num u k U) as (En & S1 & L1 & N46 & N44).
    set (sub3 := sn_shift_scale sub2 (Z.of_nat k)).
    assert (W3 : whole sub3) by (split; [apply wf_shift; [apply W2|lia]|apply W2]).
    assert (N3 : ~ empty sub3) by (apply shift_ne; apply W2).
    assert (P3 : places sub3 = places sub2 + Z.of_nat k /\ Z.of_nat k <= sn_scale sub3).
    { unfold sub3, sn_shift_scale, places, slen. cbn [sn_sig sn_scale]. rewrite (proj2 (wf_not_zero _ (proj1 W2)) N2).
      pose proof (wf_scale _ (proj1 W2)). split; lia. }
    destruct P3 as (P3 & S3).
    destruct (add_room (p_total p) sub3 (Z.of_nat r) Rm W3 N3 ltac:(lia)) as (tot & Et & Wt & Nt & St & _ & _).
    set (p2 := Parser 0 true false (p_hanging p1) (p_error p1) tot (StrNum (SIO [] 0) 0 (-1) true) (StrNum (SIO [] 0) 0 (-1) true)).
    assert (A : p_append p1 u = (true, p2)).
    { unfold p_append. destruct (Z.eqb_spec u 46); [contradiction|]. destruct (Z.eqb_spec u 44); [contradiction|]. rewrite En, S1, L1.
      rewrite Ea. rewrite (proj2 (wf_not_zero _ (proj1 W2)) N2). cbn [negb orb]. rewrite Z.opp_involutive. fold sub3.
      rewrite (pt_total _ _ _ _ Pt), Et. reflexivity. }
    destruct (IH p2) as (q & s1 & w & p' & K1 & K2 & K3 & K4 & K5 & K6 & K7); auto.
    { constructor; auto; try apply Pt; exact whole_blank. } { reflexivity. } { split; [exact Wt|right; cbn; lia]. }
    exists q, s1, w, p'. split; [exact K1|]. split; [|split; [exact K3|split; [exact K4|split; [exact K5|split; [exact K6|]]]]].
    + rewrite (feed_app_ok' _ _ _ _ (pt_feed _ _ _ _ Pt)). rewrite (feed_cons _ _ _ _ A). exact K2.
    + intros (c & s0 & d & E0 & Dc). apply K7. destruct s as [|c2 s].
      * apply app_inj_tail in E0 as (_ & <-). exfalso. destruct (digit_char_num u d Dc) as (En2 & Sm2 & Lg & _). congruence.
      * destruct (exists_last (l := c2 :: s)) as (s2 & z & Ez); [discriminate|]. rewrite Ez in *. exists z, s2, d. split; [reflexivity|].
        assert (EE : (g ++ u :: s2) ++ [z] = s0 ++ [c]) by (rewrite <- E0, <- app_assoc; reflexivity).
        apply app_inj_tail in EE as (_ & ->). exact Dc.
Qed.

Lemma ready_new : ready p_new /\ p_first p_new = true /\ blank (p_sub p_new) /\ forall r, room (p_total p_new) r.
Proof.
  split; [constructor; try reflexivity; exact whole_blank|]. split; [reflexivity|]. split; [reflexivity|].
  intros r. split; [exact whole_blank|left; exact empty_blank].
Qed.

Theorem fits_accepted r s : fits_large r s -> exists p1 p, p_feed p_new s = (true, p1) /\ p_done p1 = (true, p).
Proof.
  intros F. destruct ready_new as (R1 & R2 & R3 & R4).
  destruct (large_read r s F p_new R1 R2 R3 (R4 _)) as (q & s1 & w & p' & Pt & Fd & Tq & Bq & Rm & Hw & _).
  exists p'. destruct (part_sum _ _ _ _ Pt) as (sub2 & Ea & W2 & E2 & P2).
  assert (K : exists t, sn_add (p_total p') sub2 = (true, t, sub2)).
  { destruct (empty_dec sub2) as [E|N]; [rewrite (add_empty _ _ (proj1 W2) E); eauto|].
    destruct (add_room _ sub2 w Rm W2 N (P2 N)) as (t & Et & _). eauto. }
  destruct K as (t & Et). unfold p_done. rewrite Ea, Et. cbn [p_hanging p_comma]. rewrite (pt_hang _ _ _ _ Pt), (pt_comma _ _ _ _ Pt). cbn. eauto.
Qed.

(** a number with a point is added *)
Lemma add_frac a b r : room a r -> wf b -> sn_scale b = 0 -> 1 <= sn_point b < slen b -> sn_point b <= r ->
  exists a' b', sn_add a b = (true, a', b') /\ wf a' /\ sn_scale a' = 0 /\ 1 <= sn_point a' < slen a' /\
    (empty a -> sn_point a' = sn_point b) /\ (~ empty a -> sn_point a' = places a).
Proof.
  intros ((Wa & Pa) & Ha) Wb Sb Pb L. assert (Nb : ~ empty b) by (intros E; apply empty_slen in E; lia).
  unfold sn_add. rewrite (proj2 (wf_not_zero b Wb) Nb).
  destruct (empty_dec a) as [Ea|Na].
  - rewrite (proj2 (wf_is_zero a Wa) Ea). rewrite write_end by apply Wa. unfold empty in Ea. rewrite Ea. cbn [app].
    eexists _, _. split; [reflexivity|]. split; [constructor; cbn; try apply Wb; auto|].
    cbn [sn_scale sn_point]. split; [exact Sb|]. split; [exact Pb|]. split; [reflexivity|]. intros H. exfalso. apply H. exact Ea.
  - rewrite (proj2 (wf_not_zero a Wa) Na). destruct Ha as [Ea|Ha]; [contradiction|].
    rewrite (whole_norm a (conj Wa Pa)).
    assert (NB : sn_normalize b = StrNum (sn_sig b) 0 (sn_point b) (sn_allzero b)).
    { unfold sn_normalize. destruct (Z.ltb_spec (sn_point b) 0); [lia|]. rewrite (wf_tell b Wb), Sb.
      destruct (Z.ltb_spec 0 (slen b - sn_point b)); [|lia]. rewrite Z.add_0_r. reflexivity. }
    unfold sn_int_length. rewrite NB. cbn [sn_point sn_sig sn_scale sn_allzero].
    destruct (Z.leb_spec 0 (sn_point b)); [|lia]. destruct (Z.leb_spec (sn_point b) (sn_scale a)) as [L2|L2]; [|lia].
    rewrite fill_zero_buf by (auto; lia). cbn [sn_sig sn_scale sn_point sn_allzero sio_buf]. unfold tell. cbn [sn_sig sio_pos].
    rewrite write_end by reflexivity. eexists _, _. split; [reflexivity|]. cbn [sn_scale sn_point].
    assert (PL : Z.of_nat (length (sio_buf (sn_sig a) ++ repeat 48 (Z.to_nat (sn_scale a - sn_point b)))) + sn_point b = places a).
    { rewrite app_length, repeat_length. unfold places, slen. lia. }
    assert (SL : forall x y z v, slen (StrNum (SIO ((sio_buf (sn_sig a) ++ repeat 48 (Z.to_nat (sn_scale a - sn_point b))) ++ sio_buf (sn_sig b)) x) y z v)
       = places a - sn_point b + slen b).
    { intros. unfold slen. cbn [sn_sig sio_buf]. rewrite app_length. lia. }
    pose proof (slen_pos a Na). pose proof (wf_scale a Wa).
    assert (1 <= places a) by (unfold places; lia).
    split; [|split; [reflexivity|split; [rewrite SL; lia|split; [intros E; contradiction|intros _; exact PL]]]].
    constructor; cbn [sn_sig sio_pos sio_buf sn_scale sn_point]; auto; [|lia|].
    + rewrite !Forall_app. repeat split; [apply Wa|apply adig_zeros|apply Wb].
    + right. rewrite SL. lia.
Qed.

(** a fraction after a number *)
Lemma fraction_accepted p f w : p_first p = false -> (p_comma p = true -> check_comma p = true) ->
  whole (p_tmp p) -> sn_scale (p_tmp p) = 0 -> ~ empty (p_tmp p) -> room (p_sub p) (slen (p_tmp p)) ->
  (empty (p_sub p) -> slen (p_tmp p) <= w) -> (~ empty (p_sub p) -> places (p_sub p) <= w) -> room (p_total p) w ->
  all_digits f -> f <> [] -> exists p1 q, p_feed p (point_char :: f) = (true, p1) /\ p_done p1 = (true, q).
Proof.
  intros Fi Cm (Wt & Pt) St Nt Rs W1 W2 Rt Hf Nf.
  set (tmp := StrNum (sn_sig (p_tmp p)) (sn_scale (p_tmp p)) (tell (p_tmp p)) (sn_allzero (p_tmp p))).
  set (p2 := Parser (p_digits p) (p_first p) false true (p_error p) (p_total p) (p_sub p) tmp).
  pose proof (slen_pos _ Nt) as Lt.
  assert (A : p_append p point_char = (true, p2)).
  { unfold p_append. change (point_char =? 46) with true. cbn iota. cbn [p_first p_comma p_tmp p_digits p_error p_total p_sub p_hanging]. rewrite Fi.
    assert (C : p_comma p && negb (check_comma (Parser (p_digits p) false (p_comma p) true (p_error p) (p_total p) (p_sub p) (p_tmp p))) = false).
    { destruct (p_comma p) eqn:EC; [|reflexivity]. specialize (Cm eq_refl). unfold check_comma in *. cbn [p_first p_comma p_digits p_tmp]. rewrite Fi, EC in Cm.
      rewrite Cm. reflexivity. }
    rewrite C. unfold sn_set_point. rewrite St, Pt. cbn [Z.eqb]. change (0 =? 0) with true. change (-1 <? 0) with true. cbn [andb negb].
    unfold p2, tmp. rewrite Fi, St. reflexivity. }
  assert (WT : wf tmp). { constructor; try apply Wt. unfold tmp. cbn [sn_point]. right. rewrite (wf_tell _ Wt). unfold slen in *. cbn [sn_sig]. lia. }
  destruct (digits_read f Hf p2 WT Nf) as (t4 & E4 & W4 & P4 & S4 & L4 & _).
  cbn [p2 p_tmp p_digits p_comma p_error p_total p_sub] in *.
  rewrite (feed_cons _ _ _ _ A), E4.
  assert (LF : 1 <= Z.of_nat (length f)) by (destruct f; [congruence|cbn [length]; lia]).
  assert (Pt4 : sn_point t4 = slen (p_tmp p)) by (rewrite P4; unfold tmp; cbn [sn_point]; now rewrite (wf_tell _ Wt)).
  assert (Lt4 : slen t4 = slen (p_tmp p) + Z.of_nat (length f)) by (rewrite L4; reflexivity).
  destruct (add_frac (p_sub p) t4 _ Rs W4) as (sub & b' & Ea & Ws & Ss & Ps & Q1 & Q2); try lia. { rewrite S4. exact St. }
  destruct (add_frac (p_total p) sub w Rt Ws Ss Ps) as (tot & c' & Et & _).
  { destruct (empty_dec (p_sub p)) as [E|E]; [rewrite Q1 by exact E; specialize (W1 E); lia|rewrite Q2 by exact E; auto]. }
  eexists _, _. split; [reflexivity|]. unfold p_done. cbn [p_sub p_tmp p_total]. rewrite Ea, Et. reflexivity.
Qed.

Theorem fits_fraction_accepted r s f : fits_large r s -> (exists c s0 d, s = s0 ++ [c] /\ digit_char c d) -> all_digits f -> f <> [] ->
  exists p1 p, p_feed p_new (s ++ point_char :: f) = (true, p1) /\ p_done p1 = (true, p).
Proof.
  intros F Dg Hf Nf. destruct ready_new as (R1 & R2 & R3 & R4).
  destruct (large_read r s F p_new R1 R2 R3 (R4 _)) as (q & s1 & w & p' & [T1 T2 T3 T4 (T5 & T5') T6 T7 T8 (T9 & T9') T10] & Fd & Tq & Bq & Rm & Hw & K).
  specialize (T7 (K Dg)). rewrite (feed_app_ok' _ _ _ _ Fd). apply (fraction_accepted p' f w); auto. congruence.
Qed.

(** ** Thousands separators *)
Lemma groups_read r : comma_groups r -> forall p, check_comma p = true -> p_first p = false -> whole (p_tmp p) -> sn_scale (p_tmp p) = 0 -> ~ empty (p_tmp p) ->
  exists tmp, p_feed p r = (true, Parser 3 false true false (p_error p) (p_total p) (p_sub p) tmp) /\ whole tmp /\ sn_scale tmp = 0 /\ ~ empty tmp.
Proof.
  assert (One : forall g p, all_digits g -> length g = 3%nat -> check_comma p = true -> p_first p = false -> whole (p_tmp p) -> sn_scale (p_tmp p) = 0 -> ~ empty (p_tmp p) ->
     exists tmp, p_feed p (comma_char :: g) = (true, Parser 3 false true false (p_error p) (p_total p) (p_sub p) tmp) /\ whole tmp /\ sn_scale tmp = 0 /\ ~ empty tmp).
  { intros g p Hg Lg Ck Fi (Wt & Pt) St Nt.
    assert (A : p_append p comma_char = (true, Parser 0 (p_first p) true (p_hanging p) (p_error p) (p_total p) (p_sub p) (p_tmp p))).
    { unfold p_append. change (comma_char =? 46) with false. change (comma_char =? 44) with true. cbn iota. rewrite Ck. reflexivity. }
    rewrite (feed_cons _ _ _ _ A). 
    destruct (digits_read g Hg (Parser 0 (p_first p) true (p_hanging p) (p_error p) (p_total p) (p_sub p) (p_tmp p)) Wt) as (tmp & E & W & P & S1 & L & _).
    { destruct g; discriminate. }
    cbn [p_tmp p_digits p_comma p_error p_total p_sub] in *. exists tmp. rewrite E, Lg. split; [reflexivity|]. split; [split; [exact W|congruence]|].
    split; [congruence|]. intros E0. apply empty_slen in E0. pose proof (slen_pos _ Nt). lia. }
  induction 1 as [g Hg Lg|g r Hg Lg R IH]; intros p Ck Fi Wt St Nt.
  - now apply One.
  - destruct (One g p Hg Lg Ck Fi Wt St Nt) as (tmp & E & W & S1 & N).
    assert (EE : comma_char :: g ++ r = (comma_char :: g) ++ r) by reflexivity. rewrite EE, (feed_app_ok' _ _ _ _ E).
    destruct (IH (Parser 3 false true false (p_error p) (p_total p) (p_sub p) tmp)) as (tmp2 & E2 & K); auto. exists tmp2. auto.
Qed.

Lemma thousands_read s : starts_thousands s -> exists p, p_feed p_new s = (true, p) /\ p_first p = false /\ p_hanging p = false /\
  (p_comma p = true -> p_digits p = 3%nat) /\ whole (p_tmp p) /\ sn_scale (p_tmp p) = 0 /\ ~ empty (p_tmp p) /\ blank (p_sub p) /\ blank (p_total p).
Proof.
  intros [(Ns & Hs)|(g & r & -> & Hg & Lg & R & NZ)].
  - destruct (digits_read s Hs p_new) as (tmp & E & W & P & S1 & L & _); [apply whole_blank|exact Ns|].
    eexists. split; [exact E|]. cbn [p_first p_hanging p_comma p_tmp p_sub p_total].
    split; [reflexivity|]. split; [reflexivity|]. split; [discriminate|]. split; [split; [exact W|exact P]|]. split; [exact S1|].
    split; [|split; reflexivity]. { intros E0. apply empty_slen in E0. assert (1 <= Z.of_nat (length s)) by (destruct s; [congruence|cbn [length]; lia]).
      unfold slen in L at 2. cbn in L. lia. }
  - assert (Ng : g <> []) by (destruct g; [cbn in Lg; lia|discriminate]).
    destruct (digits_read g Hg p_new) as (tmp & E & W & P & S1 & L & Z); [apply whole_blank|exact Ng|].
    rewrite (feed_app_ok' _ _ _ _ E).
    assert (Nt : ~ empty tmp). { intros E0. apply empty_slen in E0. unfold slen in L at 2. cbn in L. lia. }
    set (p1 := Parser (p_digits p_new + length g) false (p_comma p_new) false (p_error p_new) (p_total p_new) (p_sub p_new) tmp) in *.
    destruct (groups_read r R p1) as (tmp2 & E2 & W2 & S2 & N2); auto.
    + unfold check_comma. cbn [p1 p_first p_comma p_digits p_tmp]. change (p_comma p_new) with false. cbn [negb].
      rewrite (proj2 (wf_not_zero _ W) Nt), (proj2 Z (or_intror NZ)). cbn [negb]. rewrite !andb_true_r. apply Nat.leb_le. cbn. lia.
    + split; [exact W|exact P].
    + rewrite E2. eexists. split; [reflexivity|]. cbn [p_first p_hanging p_comma p_tmp p_sub p_total p_digits]. repeat split; auto; apply W2.
Qed.

Lemma add_blank a b : blank a -> wf b -> ~ empty b -> exists a', sn_add a b = (true, a', b) /\ wf a' /\ ~ empty a'.
Proof.
  intros -> W N. unfold sn_add. rewrite (proj2 (wf_not_zero b W) N). cbn [sn_is_zero tell sn_sig sio_pos]. 
  change (sn_is_zero (StrNum (SIO [] 0) 0 (-1) true)) with true. cbn iota.
  eexists. split; [reflexivity|]. rewrite write_end by reflexivity. cbn [sn_sig sio_buf app]. split; [constructor; cbn; try apply W; auto|].
  unfold empty in *. exact N.
Qed.

Theorem thousands_accepted s : starts_thousands s -> exists p1 p, p_feed p_new s = (true, p1) /\ p_done p1 = (true, p).
Proof.
  intros T. destruct (thousands_read s T) as (p & E & Fi & Hg & Cm & W & Sc & N & Bs & Bt). exists p.
  destruct (add_blank _ _ Bs (proj1 W) N) as (sub & Ea & Ws & Ns). destruct (add_blank _ _ Bt Ws Ns) as (tot & Et & _).
  unfold p_done. rewrite Ea, Et. cbn [p_hanging p_comma p_digits]. rewrite Hg.
  destruct (p_comma p); [rewrite (Cm eq_refl)|]; cbn; eauto.
Qed.
Theorem thousands_fraction_accepted s f : starts_thousands s -> all_digits f -> f <> [] ->
  exists p1 p, p_feed p_new (s ++ point_char :: f) = (true, p1) /\ p_done p1 = (true, p).
Proof.
  intros T Hf Nf. destruct (thousands_read s T) as (p & E & Fi & Hg & Cm & W & Sc & N & Bs & Bt).
  rewrite (feed_app_ok' _ _ _ _ E). apply (fraction_accepted p f (slen (p_tmp p))); auto.
  - intros C. unfold check_comma. rewrite Fi, C, (Cm C). reflexivity.
  - rewrite Bs. split; [exact whole_blank|left; exact empty_blank].
  - lia.
  - rewrite Bs. intros H. exfalso. apply H. exact empty_blank.
  - rewrite Bt. split; [exact whole_blank|left; exact empty_blank].
Qed.
