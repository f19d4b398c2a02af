(** Commas in accepted numerals, and the numbers of digits-and-commas texts. *)
From Coq Require Import List ZArith QArith Lia Bool Arith.
From Verif Require Import Base M_NumericParser S_Numeric P_Numeric.
Import ListNotations.
Open Scope Z_scope.

Lemma comma_groups_snoc r g : comma_groups r -> all_digits g -> length g = 3%nat -> comma_groups (r ++ comma_char :: g).
Proof.
  intros R G L. induction R as [h H HL|h r H HL R IH].
  - cbn [app]. apply cg_more; auto. now constructor.
  - cbn [app]. rewrite <- app_assoc. now apply cg_more.
Qed.

Definition digit_or_comma (c : Z) : Prop := (exists d, digit_char c d) \/ c = comma_char.

Lemma digit_char_num c d : digit_char c d -> char_to_num c = Some d /\ is_small_unit d = false /\ is_large_unit d = false
  /\ c <> 46 /\ c <> 44 /\ 0 <= d <= 9.
Proof.
  assert (SL : forall d, 0 <= d -> is_small_unit d = false /\ is_large_unit d = false).
  { intros e He. unfold is_small_unit, is_large_unit. destruct (Z.ltb_spec e 0); [lia|]. destruct (Z.leb_spec e (-4)); [lia|].
    now rewrite andb_false_r. }
  intros H. inversion H; subst; try (repeat split; (reflexivity || lia)).
  destruct (SL d ltac:(lia)) as [-> ->]. split; [|repeat split; lia].
  unfold char_to_num. destruct (Z.leb_spec 48 (48 + d)); [|lia]. destruct (Z.leb_spec (48 + d) 57); [|lia]. cbn [andb]. f_equal. lia.
Qed.

Record cinv (p : parser) (a : text) : Prop := {
  ci_first : p_first p = true <-> a = [];
  ci_hang : p_hanging p = false;
  ci_total : p_total p = sn_clear sn_new;
  ci_sub : p_sub p = sn_clear sn_new;
  ci_tmp : wf (p_tmp p) /\ sn_scale (p_tmp p) = 0 /\ sn_point (p_tmp p) = -1;
  ci_comma :
    (p_comma p = false /\ all_digits a /\ p_digits p = length a) \/
    (p_comma p = true /\ exists g r cur, a = g ++ r ++ comma_char :: cur /\ all_digits g /\ (1 <= length g <= 3)%nat
        /\ (r = [] \/ comma_groups r) /\ all_digits cur /\ p_digits p = length cur);
}.

Lemma cinv_new : cinv p_new [].
Proof.
  constructor; try reflexivity; try tauto.
  - split; [apply (clear_wf sn_new)|]. split; reflexivity.
  - left. repeat split. constructor.
Qed.

Lemma cinv_append p a c p' : cinv p a -> digit_or_comma c -> p_append p c = (true, p') -> cinv p' (a ++ [c]).
Proof.
  intros [CF CH CT CS (CW & CSc & CP) CC] [(d & D)| ->].
  - destruct (digit_char_num c d D) as (E & S1 & L1 & N46 & N44 & R). unfold p_append.
    destruct (Z.eqb_spec c 46); [contradiction|]. destruct (Z.eqb_spec c 44); [contradiction|].
    rewrite E, S1, L1. intros [= <-]. constructor; cbn [p_first p_hanging p_total p_sub p_tmp p_comma p_digits]; auto.
    + split; [discriminate|]. intros K. apply app_eq_nil in K. destruct K; discriminate.
    + split; [now apply wf_append|]. split; assumption.
    + assert (AD : forall l, all_digits l -> all_digits (l ++ [c])).
      { intros l Hl. apply Forall_app. split; [exact Hl|]. constructor; [eauto|constructor]. }
      destruct CC as [(C & A & L)|(C & g & r & cur & -> & G & GL & R1 & AC & L)].
      * left. split; [exact C|]. split; [now apply AD|]. rewrite app_length. cbn. lia.
      * right. split; [exact C|]. exists g, r, (cur ++ [c]). rewrite <- !app_assoc. cbn [app]. 
        repeat (split; [solve [auto]|]). rewrite app_length. cbn. lia.
  - unfold p_append. change (comma_char =? 46) with false. change (comma_char =? 44) with true. cbn iota.
    unfold check_comma. destruct (p_first p) eqn:F; [discriminate|].
    assert (NA : a <> []) by (intros K; apply CF in K; congruence).
    destruct CC as [(C & A & L)|(C & g & r & cur & -> & G & GL & R1 & AC & L)]; rewrite C; cbn [negb].
    + destruct (Nat.leb_spec (p_digits p) 3) as [K|K]; [|discriminate]. destruct (_ && _); [|discriminate]. cbn. intros [= <-].
      constructor; cbn; auto.
      * split; [congruence|]. intros E. apply app_eq_nil in E. destruct E; discriminate.
      * right. split; [reflexivity|]. exists a, [], []. cbn. repeat split; auto; [|lia|constructor].
        destruct a; [congruence|cbn; lia].
    + destruct (Nat.eqb_spec (p_digits p) 3) as [K|K]; [|discriminate]. cbn. intros [= <-].
      constructor; cbn; auto.
      * split; [congruence|]. intros E. apply app_eq_nil in E. destruct E; discriminate.
      * right. split; [reflexivity|]. exists g, (r ++ comma_char :: cur), []. rewrite <- !app_assoc. cbn [app].
        repeat split; auto; try lia; [|constructor].
        right. destruct R1 as [->|R1]; [cbn; constructor; auto; lia|]. apply comma_groups_snoc; auto. lia.
Qed.

Lemma cinv_feed s : forall p a p', cinv p a -> Forall digit_or_comma s -> p_feed p s = (true, p') -> cinv p' (a ++ s).
Proof.
  induction s as [|c s IH]; intros p a p' C F; cbn [p_feed].
  - intros [= <-]. now rewrite app_nil_r.
  - destruct (p_append p c) as [ok p1] eqn:A. destruct ok; [|discriminate]. intros K. inversion F; subst.
    pose proof (cinv_append _ _ _ _ C H1 A) as C1. specialize (IH _ _ _ C1 H2 K). now rewrite <- app_assoc in IH.
Qed.

Lemma feed_app s t : forall p p', p_feed p (s ++ t) = (true, p') -> exists p1, p_feed p s = (true, p1) /\ p_feed p1 t = (true, p').
Proof.
  induction s as [|c s IH]; intros p p'; cbn [p_feed app].
  - eauto.
  - destruct (p_append p c) as [ok p1]. destruct ok; [|discriminate]. apply IH.
Qed.

(** Closing: at the end or at the point, the current group is full. *)
Lemma cinv_thousands p a : cinv p a -> a <> [] -> (p_comma p = true -> p_digits p = 3%nat) -> thousands a.
Proof.
  intros [CF CH CT CS _ CC] N K. destruct CC as [(C & A & L)|(C & g & r & cur & -> & G & GL & R1 & AC & L)].
  - left. auto.
  - right. exists g, (r ++ comma_char :: cur). specialize (K C). repeat split; auto; try lia.
    destruct R1 as [->|R1]; [cbn; constructor; auto; lia|]. apply comma_groups_snoc; auto. lia.
Qed.

Lemma thousands_accept a rest p p' : Forall digit_or_comma a -> a <> [] -> (rest = [] \/ exists f, rest = point_char :: f) ->
  p_feed p_new (a ++ rest) = (true, p) -> p_done p = (true, p') -> thousands a.
Proof.
  intros F N R A D. apply feed_app in A. destruct A as (p1 & A & B).
  pose proof (cinv_feed a p_new [] p1 cinv_new F A) as C. cbn [app] in C.
  apply (cinv_thousands p1 a C N). intros CC. destruct R as [->|(f & ->)].
  - cbn [p_feed] in B. injection B as <-. unfold p_done in D.
    destruct (sn_add (p_sub p1) (p_tmp p1)) as [[ok1 sub] tmp].
    destruct (if ok1 then sn_add (p_total p1) sub else (false, p_total p1, sub)) as [[ret total] sub'].
    cbn in D. rewrite (ci_hang _ _ C), CC in D. cbn in D. destruct (Nat.eqb_spec (p_digits p1) 3); [assumption|discriminate].
  - cbn [p_feed] in B. unfold p_append in B at 1. change (point_char =? 46) with true in B. cbn in B.
    destruct (p_first p1) eqn:PF; [discriminate|]. rewrite CC in B. cbn [andb] in B. unfold check_comma in B. cbn in B.
    try rewrite PF in B. try rewrite CC in B. cbn in B. destruct (Nat.eqb_spec (p_digits p1) 3) as [K|K]; [exact K|]. cbn in B. discriminate.
Qed.

Lemma plain_number a p p' : Forall digit_or_comma a -> p_feed p_new a = (true, p) -> p_done p = (true, p') ->
  wf (p_total p') /\ sn_scale (p_total p') = 0 /\ sn_point (p_total p') = -1.
Proof.
  intros F A D. pose proof (cinv_feed a p_new [] p cinv_new F A) as [_ _ CT CS (W & Sc & P) _]. revert D. unfold p_done. rewrite CS, CT.
  destruct (sn_add (sn_clear sn_new) (p_tmp p)) as [[ok1 sub] tmp] eqn:E1.
  assert (G : forall x ok y z, wf x -> sn_scale x = 0 -> sn_point x = -1 -> sn_add (sn_clear sn_new) x = (ok, y, z) ->
    ok = true /\ wf y /\ sn_scale y = 0 /\ sn_point y = -1).
  { intros x ok y z Wx Sx Px. intros E. pose proof (add_wf _ _ _ _ _ (clear_wf sn_new) Wx E) as (Wy & _).
    revert E. unfold sn_add. destruct (sn_is_zero x); [intros [= <- <- <-]; auto|].
    change (sn_is_zero (sn_clear sn_new)) with true. cbn iota. intros [= <- <- <-]. auto. }
  destruct (G _ _ _ _ W Sc P E1) as (-> & W1 & S1 & P1).
  destruct (sn_add (sn_clear sn_new) sub) as [[ok2 total] sub'] eqn:E2. destruct (G _ _ _ _ W1 S1 P1 E2) as (-> & W2 & S2 & P2).
  cbn. destruct (p_hanging p); [discriminate|]. destruct (_ && _); [discriminate|]. intros [= <-]. cbn. auto.
Qed.

Lemma str_plain n : wf n -> sn_scale n = 0 -> sn_point n = -1 -> exists out, sn_str n = Ok (out, n).
Proof.
  intros W S0 P. unfold sn_str. destruct (sn_is_zero n); [eauto|].
  assert (E : sn_normalize n = n) by (unfold sn_normalize; now rewrite P).
  rewrite E, S0, P. cbn. eauto.
Qed.
