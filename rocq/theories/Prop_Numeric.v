(** Properties C32-C34 and C36: the numeric parser. *)
From Coq Require Import List ZArith QArith Lia Bool.
From Verif Require Import Base M_NumericParser S_Numeric P_Numeric P_NumericReading P_NumericComma.
Import ListNotations.
Open Scope Z_scope.

(** A string is accepted: every append() and then done() return True; [p] is the parser
    after done(). *)
Definition accepts (s : text) (p : parser) : Prop :=
  exists p1, p_feed p_new s = (true, p1) /\ p_done p1 = (true, p).

(** The parser after [s], and a way to decide acceptance by computation (for the examples). *)
Definition after (s : text) : bool * parser :=
  let '(ok, p1) := p_feed p_new s in if ok then p_done p1 else (false, p1).
Lemma accepts_after s : fst (after s) = true -> accepts s (snd (after s)).
Proof.
  unfold after, accepts. destruct (p_feed p_new s) as [[|] p1]; [|discriminate].
  destruct (p_done p1) as [[|] p] eqn:E; [|discriminate]. cbn. eauto.
Qed.
Definition norm_of (p : parser) : text := match p_normalized p with Ok (o, _) => o | Err _ => [] end.
Definition norm_next (p : parser) : parser := match p_normalized p with Ok (_, q) => q | Err _ => p end.
Lemma norm_ok p : (match p_normalized p with Ok _ => true | Err _ => false end) = true ->
  p_normalized p = Ok (norm_of p, norm_next p).
Proof. unfold norm_of, norm_next. now destruct (p_normalized p) as [[o q]|]. Qed.
Lemma norm_is p o : (match p_normalized p with Ok (o', _) => list_eqb Z.eqb o' o | Err _ => false end) = true ->
  p_normalized p = Ok (o, norm_next p).
Proof.
  unfold norm_next. destruct (p_normalized p) as [[o' q]|]; [|discriminate]. intros H.
  apply (list_eqb_spec Z.eqb Z.eqb_eq) in H. now subst.
Qed.

(** C32: an accepted string is a numeral (commas apart), and get_normalized() succeeds
    and is a decimal numeral of the same value; the value is the only one the string
    has under the reading [numeral]. *)
Theorem C32_value s p :
  accepts s p ->
  exists v out p' w,
    numeral (without_commas s) v /\
    (forall v', numeral (without_commas s) v' -> (v' == v)%Q) /\
    p_normalized p = Ok (out, p') /\ decimal out w /\ (w == v)%Q.
Proof.
  intros (p1 & F & D). pose proof (feed_inv s p_new [] p1 inv_new F) as I. cbn [app] in I.
  destruct (done_inv _ _ _ I D) as (W & v & N & Ev).
  destruct (str_spec (p_total p) W) as (out & n' & w & E & _ & DW & Ew).
  exists v, out. unfold p_normalized. rewrite E. cbn [bind]. eexists _, w.
  split; [exact N|]. split; [intros v' N'; symmetry; now apply (numeral_fun _ _ N)|].
  split; [reflexivity|]. split; [exact DW|]. rewrite Ew, Ev. reflexivity.
Qed.
Print Assumptions C32_value.

(** C33 *)
Theorem C33_canonical s p out p' :
  accepts s p -> p_normalized p = Ok (out, p') -> canonical out.
Proof.
  intros (p1 & F & D). pose proof (feed_inv s p_new [] p1 inv_new F) as I. cbn [app] in I.
  destruct (done_inv _ _ _ I D) as (W & _).
  destruct (str_spec (p_total p) W) as (out' & n' & w & E & C & _). unfold p_normalized. rewrite E. cbn [bind].
  intros [= <- _]. exact C.
Qed.
Print Assumptions C33_canonical.

(** 三兆2千億千三百二十七万一四.〇五 is accepted and normalised to 3200013270014.05. *)
Definition sample : text :=
  [0x4E09; 0x5146; 50; 0x5343; 0x5104; 0x5343; 0x4E09; 0x767E; 0x4E8C; 0x5341; 0x4E03; 0x4E07; 0x4E00; 0x56DB; 46; 0x3007; 0x4E94].
Example C32_nonvacuous : exists p p', accepts sample p /\
  p_normalized p = Ok ([51; 50; 48; 48; 48; 49; 51; 50; 55; 48; 48; 49; 52; 46; 48; 53], p').
Proof. eexists _, _. split; [apply accepts_after; vm_compute; reflexivity|apply norm_is; vm_compute; reflexivity]. Qed.
(** ... and is not trivially a numeral: 万 alone has no reading. *)
Example numeral_rejects : ~ exists v, numeral [0x4E07] v.
Proof.
  intros [v H]. remember [0x4E07] as t eqn:E. destruct H as [t v G|g v u m r w N G U R]; subst.
  - pose proof (group_no_large _ _ G) as F. inversion F; subst. apply H1. eexists. constructor.
  - destruct g as [|x [|y g]]; try congruence; discriminate.
Qed.

(** C34, for numerals without units whose commas, if any, are before the point: the
    integer part is digits, or one to three digits and comma-separated groups of three.
    Missing: commas before a unit and after the point, for which it fails (below). *)
Theorem C34_thousands_partial a rest p :
  a <> [] -> Forall (fun c => (exists d, digit_char c d) \/ c = comma_char) a ->
  rest = [] \/ (exists f, rest = point_char :: f) ->
  accepts (a ++ rest) p -> thousands a.
Proof.
  intros N F R (p1 & A & D). exact (thousands_accept a rest p1 p F N R A D).
Qed.
Print Assumptions C34_thousands_partial.
Example C34_nonvacuous : exists p, accepts ([49; 50; 44; 51; 52; 53; 44; 54; 55; 56] ++ [46; 53]) p.
Proof. eexists. apply accepts_after. vm_compute. reflexivity. Qed.

(** C34 in full is false: 1,2万 (a group of one digit), 1,万 (an empty group) and
    1.2,345 (a comma in the fraction) are accepted. *)
Theorem C34_thousands_refuted :
  (exists p, accepts [49; 44; 50; 0x4E07] p) /\ (exists p, accepts [49; 44; 0x4E07] p) /\
  (exists p, accepts [49; 46; 50; 44; 51; 52; 53] p).
Proof. repeat split; eexists; apply accepts_after; vm_compute; reflexivity. Qed.
Print Assumptions C34_thousands_refuted.

(** C36, for numerals of digits and commas only.  Missing: numerals with a unit or a
    point, for which it fails (below). *)
Theorem C36_again_partial s p out p1 :
  Forall (fun c => (exists d, digit_char c d) \/ c = comma_char) s ->
  accepts s p -> p_normalized p = Ok (out, p1) -> exists p2, p_normalized p1 = Ok (out, p2).
Proof.
  intros F (q & A & D) E. destruct (plain_number s q p F A D) as (W & S0 & P).
  destruct (str_plain (p_total p) W S0 P) as (o & K). unfold p_normalized in *. rewrite K in E. cbn [bind] in E.
  injection E as <- <-. cbn [p_total p_digits]. rewrite K. cbn [bind]. eauto.
Qed.
Print Assumptions C36_again_partial.
Example C36_nonvacuous : exists p p1, accepts [49; 44; 48; 48; 48] p /\ p_normalized p = Ok ([49; 48; 48; 48], p1).
Proof. eexists _, _. split; [apply accepts_after; vm_compute; reflexivity|apply norm_is; vm_compute; reflexivity]. Qed.

(** C36 in full is false: the second call answers 1..5 for 1.5, and 100000000 for 1万. *)
Theorem C36_again_refuted :
  (exists p p1 p2, accepts [49; 46; 53] p /\ p_normalized p = Ok ([49; 46; 53], p1)
      /\ p_normalized p1 = Ok ([49; 46; 46; 53], p2)) /\
  (exists p p1 p2, accepts [49; 0x4E07] p /\ p_normalized p = Ok ([49; 48; 48; 48; 48], p1)
      /\ p_normalized p1 = Ok ([49; 48; 48; 48; 48; 48; 48; 48; 48], p2)).
Proof.
  split; eexists _, _, _; (split; [apply accepts_after; vm_compute; reflexivity|]); split; apply norm_is; vm_compute; reflexivity.
Qed.
Print Assumptions C36_again_refuted.
