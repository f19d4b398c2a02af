(** A text has at most one reading as a numeral. *)
From Coq Require Import List ZArith QArith Lia Bool Arith.
From Verif Require Import Base S_Numeric.
Import ListNotations.

Lemma digit_char_fun c d d' : digit_char c d -> digit_char c d' -> d = d'.
Proof.
  intros H H'. remember c as c' eqn:E in H'. destruct H; inversion H'; subst; try reflexivity; try lia; try congruence.
Qed.
Definition is_digit (c : Z) : Prop := exists d, digit_char c d.
Definition is_small (c : Z) : Prop := exists m, small_unit c m.
Definition is_large (c : Z) : Prop := exists m, large_unit c m.

Lemma digit_not_point : ~ is_digit point_char.
Proof. intros [d H]. unfold point_char in H. inversion H; lia. Qed.
Lemma digit_not_small c : is_digit c -> ~ is_small c.
Proof. intros [d H] [m U]. destruct U; inversion H; lia. Qed.
Lemma digit_not_large c : is_digit c -> ~ is_large c.
Proof. intros [d H] [m U]. destruct U; inversion H; lia. Qed.
Lemma point_not_small : ~ is_small point_char.
Proof. intros [m U]. inversion U. Qed.
Lemma point_not_large : ~ is_large point_char.
Proof. intros [m U]. inversion U. Qed.
Lemma small_not_large c : is_small c -> ~ is_large c.
Proof. intros [m U] [m' U']. destruct U; inversion U'. Qed.
Lemma small_fun c m m' : small_unit c m -> small_unit c m' -> m = m'.
Proof. intros U U'. destruct U; now inversion U'. Qed.
Lemma large_fun c m m' : large_unit c m -> large_unit c m' -> m = m'.
Proof. intros U U'. destruct U; now inversion U'. Qed.

Lemma digits_chars s v n : digits s v n -> Forall is_digit s /\ s <> [].
Proof.
  induction 1 as [c d H|s v n c d D [IH N] H].
  - split; [|discriminate]. constructor; [eexists; eauto|constructor].
  - split.
    + apply Forall_app. split; [exact IH|]. constructor; [eexists; eauto|constructor].
    + intros E. apply app_eq_nil in E. destruct E; discriminate.
Qed.
Lemma digits_fun s v n : digits s v n -> forall v' n', digits s v' n' -> v = v' /\ n = n'.
Proof.
  induction 1 as [c d H|s v n c d D IH H]; intros v' n' D'.
  - inversion D' as [c1 d1 H1 E|s1 v1 n1 c1 d1 D1 H1 E]; subst.
    + split; [eapply digit_char_fun; eauto|reflexivity].
    + destruct s1 as [|x [|y s1]]; try discriminate. now destruct (digits_chars _ _ _ D1).
  - inversion D' as [c1 d1 H1 E|s1 v1 n1 c1 d1 D1 H1 E]; subst.
    + destruct s as [|x [|y s]]; try discriminate. now destruct (digits_chars _ _ _ D).
    + apply app_inj_tail in E. destruct E as [-> ->]. destruct (IH _ _ D1) as [-> ->].
      now rewrite (digit_char_fun _ _ _ H H1).
Qed.

Lemma split_unique (P : Z -> Prop) a u r a' u' r' :
  Forall (fun c => ~ P c) a -> Forall (fun c => ~ P c) a' -> P u -> P u' ->
  a ++ u :: r = a' ++ u' :: r' -> a = a' /\ u = u' /\ r = r'.
Proof.
  intros F. revert a'. induction F as [|c a Hc F IH]; intros a' F' U U' E.
  - destruct a' as [|c' a']; cbn in E.
    + injection E as -> ->. auto.
    + injection E as -> _. inversion F'; subst. contradiction.
  - destruct a' as [|c' a']; cbn in E.
    + injection E as -> _. contradiction.
    + injection E as -> E. inversion F'; subst. destruct (IH a') as (-> & -> & ->); auto.
Qed.
Lemma split_none (P : Z -> Prop) a u r : Forall (fun c => ~ P c) (a ++ u :: r) -> ~ P u.
Proof. intros F. apply Forall_app in F. destruct F as [_ F]. now inversion F. Qed.

Lemma decimal_chars s v : decimal s v -> Forall (fun c => is_digit c \/ c = point_char) s /\ s <> [].
Proof.
  assert (K : forall s, Forall is_digit s -> Forall (fun c => is_digit c \/ c = point_char) s).
  { intros s0 F. eapply Forall_impl; [|exact F]. auto. }
  destruct 1 as [s v n D|s v n D|s v n f w m D D']; destruct (digits_chars _ _ _ D) as [F N].
  - auto.
  - split; [|intros E; apply app_eq_nil in E; destruct E; discriminate].
    apply Forall_app. split; [auto|]. constructor; [now right|constructor].
  - split; [|intros E; apply app_eq_nil in E; destruct E; discriminate].
    destruct (digits_chars _ _ _ D') as [F' N']. apply Forall_app. split; [auto|]. constructor; [now right|auto].
Qed.
Lemma no_point s : Forall is_digit s -> Forall (fun c => ~ c = point_char) s.
Proof. intros F. eapply Forall_impl; [|exact F]. intros c D ->. now apply digit_not_point. Qed.

Lemma decimal_fun s v v' : decimal s v -> decimal s v' -> v = v'.
Proof.
  intros D D'. remember s as t eqn:E in D'.
  destruct D as [s v n D|s v n D|s v n f w m D DF]; destruct D' as [t v' n' D'|t v' n' D'|t v' n' f' w' m' D' DF'];
    pose proof (no_point _ (proj1 (digits_chars _ _ _ D))) as F; pose proof (no_point _ (proj1 (digits_chars _ _ _ D'))) as F'.
  - subst. now destruct (digits_fun _ _ _ D _ _ D') as [-> _].
  - subst s. exfalso. exact (split_none (fun c => c = point_char) t point_char [] F eq_refl).
  - subst s. exfalso. exact (split_none (fun c => c = point_char) t point_char f' F eq_refl).
  - subst t. exfalso. exact (split_none (fun c => c = point_char) s point_char [] F' eq_refl).
  - apply app_inj_tail in E. destruct E as [-> _]. now destruct (digits_fun _ _ _ D _ _ D') as [-> _].
  - destruct (split_unique (fun c => c = point_char) t point_char f' s point_char []) as (_ & _ & K); auto.
    subst. now destruct (digits_chars _ _ _ DF').
  - subst t. exfalso. exact (split_none (fun c => c = point_char) s point_char f F' eq_refl).
  - destruct (split_unique (fun c => c = point_char) t point_char [] s point_char f) as (_ & _ & K); auto.
    subst. now destruct (digits_chars _ _ _ DF).
  - destruct (split_unique (fun c => c = point_char) t point_char f' s point_char f) as (-> & _ & ->); auto.
    destruct (digits_fun _ _ _ D _ _ D') as [-> _]. now destruct (digits_fun _ _ _ DF _ _ DF') as [-> ->].
Qed.

Lemma decimal_no_small s v : decimal s v -> Forall (fun c => ~ is_small c) s.
Proof.
  intros D. eapply Forall_impl; [|exact (proj1 (decimal_chars _ _ D))]. cbn. intros c [H| ->].
  - now apply digit_not_small.
  - apply point_not_small.
Qed.
Lemma decimal_no_large s v : decimal s v -> Forall (fun c => ~ is_large c) s.
Proof.
  intros D. eapply Forall_impl; [|exact (proj1 (decimal_chars _ _ D))]. cbn. intros c [H| ->].
  - now apply digit_not_large.
  - apply point_not_large.
Qed.
Lemma group_no_large s v : group s v -> Forall (fun c => ~ is_large c) s.
Proof.
  induction 1 as [|d v D|u m r w U G IH|d v u m r w D U G IH].
  - constructor.
  - now apply (decimal_no_large _ v).
  - constructor; [|exact IH]. apply small_not_large. eexists; eauto.
  - apply Forall_app. split; [now apply (decimal_no_large _ v)|]. constructor; [|exact IH]. apply small_not_large. eexists; eauto.
Qed.

Lemma group_fun s v : group s v -> forall v', group s v' -> (v == v')%Q.
Proof.
  induction 1 as [|d v D|u m r w U G IH|d v u m r w D U G IH]; intros v' G'.
  - inversion G' as [E|d' v1 D' E|u' m' r' w' U' G1 E|d' v1 u' m' r' w' D' U' G1 E]; subst.
    + reflexivity.
    + now destruct (decimal_chars _ _ D').
    + destruct d'; discriminate.
  - pose proof (decimal_no_small _ _ D) as F. remember d as t eqn:E in G'.
    destruct G' as [|d' v1 D'|u' m' r' w' U' G1|d' v1 u' m' r' w' D' U' G1].
    + subst. now destruct (decimal_chars _ _ D).
    + subst. rewrite (decimal_fun _ _ _ D D'). reflexivity.
    + subst. inversion F; subst. exfalso. apply H1. eexists; eauto.
    + subst. exfalso. apply (split_none is_small _ _ _ F). eexists; eauto.
  - remember (u :: r) as t eqn:E in G'.
    destruct G' as [|d' v1 D'|u' m' r' w' U' G1|d' v1 u' m' r' w' D' U' G1].
    + discriminate.
    + subst. pose proof (decimal_no_small _ _ D') as F. inversion F; subst. exfalso. apply H1. eexists; eauto.
    + injection E as -> ->. rewrite (small_fun _ _ _ U U'), (IH _ G1). reflexivity.
    + exfalso. destruct d' as [|x d']; [now destruct (decimal_chars _ _ D')|]. injection E as -> _.
      pose proof (decimal_no_small _ _ D') as F. inversion F; subst. apply H1. eexists; eauto.
  - pose proof (decimal_no_small _ _ D) as F. remember (d ++ u :: r) as t eqn:E in G'.
    destruct G' as [|d' v1 D'|u' m' r' w' U' G1|d' v1 u' m' r' w' D' U' G1].
    + destruct d; discriminate.
    + subst. pose proof (decimal_no_small _ _ D') as F'. exfalso. apply (split_none is_small _ _ _ F'). eexists; eauto.
    + exfalso. destruct d as [|x d]; [now destruct (decimal_chars _ _ D)|]. injection E as -> _.
      inversion F; subst. apply H1. eexists; eauto.
    + pose proof (decimal_no_small _ _ D') as F'.
      destruct (split_unique is_small d' u' r' d u r) as (-> & -> & ->); auto; try (eexists; eauto).
      rewrite (small_fun _ _ _ U U'), (IH _ G1), (decimal_fun _ _ _ D D'). reflexivity.
Qed.

Theorem numeral_fun s v : numeral s v -> forall v', numeral s v' -> (v == v')%Q.
Proof.
  induction 1 as [s v G|g v u m r w N G U R IH]; intros v' N'.
  - pose proof (group_no_large _ _ G) as F. destruct N' as [s v' G'|g' v' u' m' r' w' N' G' U' R'].
    + now apply (group_fun s).
    + exfalso. apply (split_none is_large _ _ _ F). eexists; eauto.
  - remember (g ++ u :: r) as t eqn:E in N'. destruct N' as [s v' G'|g' v' u' m' r' w' N' G' U' R'].
    + subst. exfalso. pose proof (group_no_large _ _ G') as F. apply (split_none is_large _ _ _ F). eexists; eauto.
    + destruct (split_unique is_large g' u' r' g u r) as (-> & -> & ->); auto; try (eexists; eauto).
      * now apply (group_no_large _ v').
      * now apply (group_no_large _ v).
      * rewrite (large_fun _ _ _ U U'), (IH _ R'), (group_fun _ _ G _ G'). reflexivity.
Qed.
