(** The value of a number that is followed by a comma or point. *)
From Coq Require Import List ZArith QArith Lia Bool Arith.
From Verif Require Import Base M_NumericParser S_Numeric P_Numeric P_NumericComma P_NumericReading P_RewriteNum.
Import ListNotations.
Open Scope Z_scope.

(** the same number, except that one may have a point at its end *)
Definition sim (a b : strnum) : Prop :=
  sn_sig a = sn_sig b /\ sn_scale (sn_normalize a) = sn_scale (sn_normalize b) /\ sn_point (sn_normalize a) = sn_point (sn_normalize b).

Lemma sim_refl a : sim a a.
Proof. repeat split. Qed.

Lemma sim_point n : wf n -> sn_scale n = 0 -> sn_point n = -1 ->
  sim n (StrNum (sn_sig n) (sn_scale n) (tell n) (sn_allzero n)).
Proof.
  intros W S0 P. unfold sim, sn_normalize. cbn [sn_sig sn_scale sn_point sn_allzero]. rewrite S0, P. cbn.
  change (tell {| sn_sig := sn_sig n; sn_scale := 0; sn_point := tell n; sn_allzero := sn_allzero n |}) with (tell n).
  rewrite (wf_tell n W). unfold slen. destruct (Z.ltb_spec (Z.of_nat (length (sio_buf (sn_sig n)))) 0); [lia|].
  rewrite Z.sub_diag. cbn. auto.
Qed.

Lemma add_sim a b b' r b1 : wf a -> wf b -> sim b b' -> sn_add a b = (true, r, b1) ->
  exists r' b1', sn_add a b' = (true, r', b1') /\ sim r r'.
Proof.
  intros Wa Wb (Sg & Sc & Pt). unfold sn_add.
  assert (Z : sn_is_zero b' = sn_is_zero b) by (unfold sn_is_zero, tell; now rewrite Sg). rewrite Z.
  destruct (sn_is_zero b) eqn:Zb. { intros [= <- <-]. eexists _, _. split; [reflexivity|apply sim_refl]. }
  destruct (sn_is_zero a) eqn:Za.
  { intros [= <- <-]. eexists _, _. split; [reflexivity|].
    apply (wf_is_zero a Wa) in Za. unfold empty in Za. rewrite !write_end by apply Wa. rewrite Za. cbn [app].
    unfold sim, sn_normalize in *. unfold tell in *. cbn [sn_sig sn_scale sn_point sio_buf sio_pos] in *. rewrite <- Sg in *.
    rewrite <- (wf_pos b Wb). split; [reflexivity|].
    destruct (sn_point b <? 0), (sn_point b' <? 0); repeat destruct (_ <? _); cbn in *; auto. }
  unfold sn_int_length. assert (T : tell (sn_normalize b') = tell (sn_normalize b)) by (unfold tell; now rewrite !normalize_buf, Sg).
  rewrite <- Sc, <- Pt, T. destruct (_ <=? _); [|discriminate]. rewrite !normalize_buf, <- Sg.
  intros [= <- <-]. eexists _, _. split; [reflexivity|apply sim_refl].
Qed.

Lemma str_sim a b o x : sim a b -> sn_str a = Ok (o, x) -> exists y, sn_str b = Ok (o, y).
Proof.
  intros (Sg & Sc & Pt). unfold sn_str.
  assert (Z : sn_is_zero b = sn_is_zero a) by (unfold sn_is_zero, tell; now rewrite Sg). rewrite Z.
  destruct (sn_is_zero a). { intros [= <- <-]. eauto. }
  rewrite <- Sc. destruct (0 <? _).
  { unfold sn_fill_zero. rewrite <- Sc. destruct (0 <? _); cbn [sn_sig]; rewrite !normalize_buf, <- Sg; intros [= <- _]; eauto. }
  rewrite <- Pt. destruct (0 <=? _).
  { rewrite !normalize_buf, <- Sg.
    destruct (strip_zeros _ _) as [i|]; cbn [bind]; [|discriminate]. destruct (sio_read1 _) as [c s]. intros [= <- _]. eauto. }
  rewrite !normalize_buf, <- Sg. intros [= <- _]. eauto.
Qed.

(** [done()] adds up what has been read, whatever it answers. *)
Lemma done_adds p ok p' sub tmp total sub2 :
  sn_add (p_sub p) (p_tmp p) = (true, sub, tmp) -> sn_add (p_total p) sub = (true, total, sub2) ->
  p_done p = (ok, p') -> p_total p' = total.
Proof.
  intros E1 E2. unfold p_done. rewrite E1, E2. destruct (p_hanging _); [intros [= <- <-]; reflexivity|].
  destruct (_ && _); intros [= <- <-]; reflexivity.
Qed.
Lemma done_true p p' : p_done p = (true, p') ->
  exists sub tmp total sub2, sn_add (p_sub p) (p_tmp p) = (true, sub, tmp) /\ sn_add (p_total p) sub = (true, total, sub2)
    /\ p_total p' = total.
Proof.
  unfold p_done. destruct (sn_add (p_sub p) (p_tmp p)) as [[ok1 sub] tmp]. destruct ok1.
  - destruct (sn_add (p_total p) sub) as [[ret total] sub2] eqn:E2. destruct (p_hanging _); [discriminate|].
    destruct (_ && _); [discriminate|]. intros [= -> <-]. eexists _, _, _, _. split; [reflexivity|]. split; [exact E2|]. reflexivity.
  - destruct (p_hanging _); [discriminate|]. destruct (_ && _); discriminate.
Qed.

(** A separator after a complete numeral does not change the result. *)
Lemma trailing_same s c p1 p0 p2 ok p : c = comma_char \/ c = point_char ->
  p_feed p_new s = (true, p1) -> p_done p1 = (true, p0) ->
  p_feed p_new (s ++ [c]) = (true, p2) -> p_done p2 = (ok, p) ->
  forall o q, p_normalized p0 = Ok (o, q) -> exists q', p_normalized p = Ok (o, q').
Proof.
  intros Hc F1 D1 F2 D2 o q N. rewrite (feed_app_ok _ _ _ _ F1) in F2. cbn [p_feed] in F2.
  destruct (p_append p1 c) as [ok1 p3] eqn:A. destruct ok1; [|discriminate]. injection F2 as ->.
  destruct (done_true _ _ D1) as (sub & tmp & total & sub2 & E1 & E2 & ET).
  pose proof (feed_inv s p_new [] p1 inv_new F1) as [Wt Ws Wm _].
  destruct Hc as [-> | ->]; unfold p_append in A.
  - change (comma_char =? 46) with false in A. change (comma_char =? 44) with true in A. cbn iota in A.
    destruct (negb (check_comma p1)); [discriminate|]. injection A as <-.
    assert (TT : p_total p = total) by (eapply done_adds; [| |exact D2]; eauto).
    unfold p_normalized in *. rewrite TT, <- ET. destruct (sn_str (p_total p0)) as [[o' x]|]; cbn [bind] in *; [|discriminate].
    injection N as -> _. eauto.
  - change (point_char =? 46) with true in A. cbn iota in A. cbn [p_first p_comma p_tmp p_digits p_hanging p_error p_total p_sub] in A.
    destruct (p_first p1); [discriminate|]. destruct (p_comma p1 && _); [discriminate|].
    unfold sn_set_point in A. destruct (Z.eqb_spec (sn_scale (p_tmp p1)) 0) as [S0|]; [|discriminate].
    destruct (Z.ltb_spec (sn_point (p_tmp p1)) 0) as [P0|]; [|discriminate]. cbn [andb negb] in A. injection A as <-.
    assert (PM : sn_point (p_tmp p1) = -1) by (destruct (wf_point _ Wm); lia).
    destruct (add_sim _ _ _ _ _ Ws Wm (sim_point _ Wm S0 PM) E1) as (sub' & tmp' & E1' & Sm).
    destruct (add_wf _ _ _ _ _ Ws Wm E1) as (Wsub & _).
    destruct (add_sim _ _ _ _ _ Wt Wsub Sm E2) as (total' & sub2' & E2' & Smt).
    assert (TT : p_total p = total') by (eapply done_adds; [| |exact D2]; eauto).
    unfold p_normalized in *. rewrite TT. rewrite ET in N. destruct (sn_str total) as [[o' x]|] eqn:Es; cbn [bind] in *; [|discriminate].
    injection N as -> _. destruct (str_sim _ _ _ _ Smt Es) as (y & Ey). rewrite Ey. cbn [bind]. eauto.
Qed.
