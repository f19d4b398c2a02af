(** Lemmas on the reading of resources: lines, words, columns. *)
From Coq Require Import List ZArith Lia Bool Arith.
From Verif Require Import Base Utf8 M_Builder M_DicBuilder P_DicOpen P_DicGrammar M_Front M_Resource S_Resource.
Import ListNotations.
Open Scope Z_scope.

Lemma is_space_white c : is_space c = true <-> In c white.
Proof.
  unfold is_space, white. split.
  - intros H. repeat rewrite orb_true_iff in H. repeat rewrite andb_true_iff in H. repeat rewrite Z.leb_le in H. repeat rewrite Z.eqb_eq in H.
    repeat match goal with H : _ \/ _ |- _ => destruct H as [H|H] end; try (subst c; cbn; tauto).
    + assert (c = 9 \/ c = 10 \/ c = 11 \/ c = 12 \/ c = 13) by lia. cbn. intuition.
    + assert (c = 28 \/ c = 29 \/ c = 30 \/ c = 31 \/ c = 32) by lia. cbn. intuition.
    + assert (c = 0x2000 \/ c = 0x2001 \/ c = 0x2002 \/ c = 0x2003 \/ c = 0x2004 \/ c = 0x2005 \/ c = 0x2006 \/ c = 0x2007 \/ c = 0x2008 \/ c = 0x2009 \/ c = 0x200A) by lia.
      cbn. intuition.
  - intros H. cbn in H. repeat (destruct H as [H|H]; [subst c; reflexivity|]). destruct H.
Qed.
Lemma not_space_white c : is_space c = false <-> ~ In c white.
Proof. rewrite <- is_space_white. destruct (is_space c); intuition congruence. Qed.

(** ** Words *)
Lemma words_from_solid w : forall acc t, Forall (fun c => ~ In c white) w -> words_from acc (w ++ t) = words_from (rev w ++ acc) t.
Proof.
  induction w as [|c w IH]; intros acc t H; [reflexivity|]. inversion H; subst. cbn [app words_from rev].
  rewrite (proj2 (not_space_white c)) by assumption. rewrite IH by assumption. now rewrite <- app_assoc.
Qed.
Lemma words_from_blank s t : blank s -> words_from [] (s ++ t) = words_from [] t.
Proof.
  induction s as [|c s IH]; intros H; [reflexivity|]. inversion H; subst. cbn [app words_from].
  rewrite (proj2 (is_space_white c)) by assumption. auto.
Qed.
Lemma words_blank s : blank s -> words s = [].
Proof. intros H. unfold words. rewrite <- (app_nil_r s). now rewrite words_from_blank. Qed.
Lemma words_from_end acc t : acc <> [] -> t = [] \/ In (hd 0 t) white -> words_from acc t = rev acc :: words t.
Proof.
  intros N [->|H]; [destruct acc; [congruence|reflexivity]|]. destruct t as [|c t]; [destruct acc; [congruence|reflexivity]|].
  cbn [hd] in H. apply is_space_white in H. unfold words. cbn [words_from]. rewrite H. destruct acc; [congruence|reflexivity].
Qed.
Lemma line_words_words t ws : line_words t ws -> words t = ws.
Proof.
  induction 1 as [s H|s w t ws H (N & S) E L IH]; [now apply words_blank|]. unfold words. rewrite words_from_blank by assumption.
  rewrite words_from_solid by assumption. rewrite app_nil_r, words_from_end; [|intros X; apply (f_equal (@rev _)) in X; rewrite rev_involutive in X; exact (N X)|assumption].
  now rewrite rev_involutive, IH.
Qed.
Lemma span_white p t : exists w r, t = w ++ r /\ Forall (fun c => is_space c = p) w /\ (r = [] \/ is_space (hd 0 r) = negb p).
Proof.
  induction t as [|c t (w & r & -> & F & E)]; [exists [], []; auto|]. destruct (bool_dec (is_space c) p) as [P|P].
  - exists (c :: w), r. auto.
  - exists [], (c :: w ++ r). split; [reflexivity|]. split; [constructor|]. right. cbn [hd]. destruct (is_space c), p; cbn; congruence.
Qed.
Lemma line_words_exists t : exists ws, line_words t ws.
Proof.
  assert (G : forall n t, (length t <= n)%nat -> exists ws, line_words t ws).
  { clear t. induction n as [|n IH]; intros t H.
    - destruct t; [|cbn in H; lia]. exists []. constructor. constructor.
    - destruct (span_white true t) as (s & r & -> & Fs & Er). assert (B : blank s) by (eapply Forall_impl; [|exact Fs]; intros c; apply is_space_white).
      destruct Er as [->|Er]; [rewrite app_nil_r; exists []; now constructor|].
      destruct r as [|c r]; [rewrite app_nil_r; exists []; now constructor|]. cbn [hd negb] in Er.
      destruct (span_white false (c :: r)) as (w & r' & E & Fw & Er').
      assert (N : w <> []). { intros ->. cbn [app] in E. subst r'. destruct Er' as [X|X]; [discriminate|]. cbn [hd negb] in X. congruence. }
      destruct (IH r') as (ws & L).
      { apply (f_equal (@length _)) in E. rewrite app_length in E. rewrite app_length in H. destruct w; [congruence|]. cbn in *. lia. }
      exists (w :: ws). rewrite E. constructor; auto.
      + split; [exact N|]. eapply Forall_impl; [|exact Fw]. intros x Hx. now apply not_space_white.
      + destruct Er' as [->|X]; [now left|right]. now apply is_space_white. }
  eapply G. reflexivity.
Qed.
Lemma words_line_words t : line_words t (words t).
Proof. destruct (line_words_exists t) as (ws & L). now rewrite (line_words_words _ _ L). Qed.
Lemma words_spec t ws : line_words t ws <-> words t = ws.
Proof. split; [apply line_words_words|]. intros <-. apply words_line_words. Qed.

(** ** Stripping *)
Lemma lstrip_split t : exists s, t = s ++ lstrip t /\ blank s.
Proof.
  induction t as [|c t (s & E & B)]; [exists []; split; [reflexivity|constructor]|]. cbn [lstrip]. destruct (is_space c) eqn:C.
  - exists (c :: s). split; [cbn [app]; now rewrite <- E|]. constructor; [now apply is_space_white|exact B].
  - exists []. split; [reflexivity|constructor].
Qed.
Lemma lstrip_hd t : lstrip t = [] \/ ~ In (hd 0 (lstrip t)) white.
Proof. induction t as [|c t IH]; [now left|]. cbn [lstrip]. destruct (is_space c) eqn:C; [exact IH|]. right. cbn [hd]. now apply not_space_white. Qed.
Lemma blank_app a b : blank (a ++ b) <-> blank a /\ blank b.
Proof. unfold blank. rewrite Forall_app. reflexivity. Qed.
Lemma blank_rev a : blank (rev a) <-> blank a.
Proof. unfold blank. split; intros H; rewrite Forall_forall in *; intros x Hx; apply H; [now rewrite <- in_rev|now rewrite in_rev]. Qed.
Lemma rstrip_split t : exists s, t = rstrip_all t ++ s /\ blank s.
Proof.
  unfold rstrip_all. destruct (lstrip_split (rev t)) as (s & E & B). exists (rev s). split; [|now apply blank_rev].
  rewrite <- rev_app_distr, <- E. now rewrite rev_involutive.
Qed.
Lemma rstrip_blank s : blank s -> rstrip_all s = [].
Proof.
  intros B. unfold rstrip_all. apply blank_rev in B. assert (X : lstrip (rev s) = []); [|now rewrite X].
  induction (rev s) as [|c l IH]; [reflexivity|]. inversion B; subst. cbn [lstrip]. rewrite (proj2 (is_space_white c)) by assumption. auto.
Qed.
Lemma rstrip_app a s : blank s -> rstrip_all (a ++ s) = rstrip_all a.
Proof.
  intros B. unfold rstrip_all. rewrite rev_app_distr. apply blank_rev in B. f_equal.
  induction (rev s) as [|c l IH]; [reflexivity|]. inversion B; subst. cbn [app lstrip]. rewrite (proj2 (is_space_white c)) by assumption. auto.
Qed.
Lemma rstrip_nil t : rstrip_all t = [] <-> blank t.
Proof.
  split; [|apply rstrip_blank]. intros H. destruct (rstrip_split t) as (s & E & B). rewrite H in E. cbn in E. now subst s.
Qed.
Lemma words_from_app_blank s : blank s -> forall t acc, words_from acc (t ++ s) = words_from acc t.
Proof.
  intros B. induction t as [|c t IH]; intros acc; cbn [app words_from].
  - destruct acc as [|a acc].
    + rewrite <- (app_nil_r s), words_from_blank by assumption. reflexivity.
    + destruct s as [|c s]; [reflexivity|]. inversion B; subst. cbn [words_from]. rewrite (proj2 (is_space_white c)) by assumption.
      f_equal. rewrite <- (app_nil_r s), words_from_blank by assumption. reflexivity.
  - destruct (is_space c); [destruct acc; now rewrite IH|apply IH].
Qed.
Lemma words_rstrip t : words (rstrip_all t) = words t.
Proof. destruct (rstrip_split t) as (s & E & B). rewrite E at 2. unfold words. now rewrite words_from_app_blank. Qed.
Lemma words_lstrip t : words (lstrip t) = words t.
Proof. destruct (lstrip_split t) as (s & E & B). rewrite E at 2. unfold words. now rewrite words_from_blank. Qed.
Lemma words_strip t : words (strip t) = words t.
Proof. unfold strip. now rewrite words_rstrip, words_lstrip. Qed.
Lemma strip_nil t : strip t = [] <-> blank t.
Proof.
  unfold strip. rewrite rstrip_nil. destruct (lstrip_split t) as (s & E & B). split.
  - intros H. rewrite E. now apply blank_app.
  - intros H. rewrite E in H. now apply blank_app in H.
Qed.
Lemma rstrip_hd t : rstrip_all t <> [] -> hd 0 (rstrip_all t) = hd 0 t.
Proof. intros N. destruct (rstrip_split t) as (s & E & B). rewrite E at 2. destruct (rstrip_all t); [congruence|reflexivity]. Qed.

Lemma starts_begins p t : starts p t = true <-> begins p t.
Proof.
  unfold starts, begins. rewrite teqb_eq. split.
  - intros H. exists (skipn (length p) t). rewrite <- H at 1. now rewrite firstn_skipn.
  - intros (r & ->). rewrite firstn_app, firstn_all, Nat.sub_diag. cbn. apply app_nil_r.
Qed.
Lemma starts_app p a s : starts p a = true -> starts p (a ++ s) = true.
Proof. rewrite !starts_begins. intros (r & ->). exists (r ++ s). now rewrite app_assoc. Qed.

(** A blank tail does not change whether a stripped line begins with a pattern without white space. *)
Lemma starts_rstrip p t : Forall (fun c => ~ In c white) p -> starts p (rstrip_all t) = starts p t.
Proof.
  intros S. destruct (rstrip_split t) as (s & E & B). destruct (starts p (rstrip_all t)) eqn:X.
  - rewrite E. symmetry. now apply starts_app.
  - symmetry. apply not_true_iff_false. intros Y. apply not_true_iff_false in X. apply X. apply starts_begins in Y as (r & Y). apply starts_begins.
    rewrite E in Y. clear E X. revert p S Y. induction (rstrip_all t) as [|c l IH]; intros p S Y.
    + destruct p as [|c p]; [now exists []|]. cbn in Y. subst s. inversion B; subst. inversion S; subst. contradiction.
    + destruct p as [|d p]; [now exists (c :: l)|]. cbn in Y. injection Y as -> Y. inversion S; subst. destruct (IH p) as (r' & ->); auto. now exists r'.
Qed.

(** ** Lines of files *)
Lemma lines_from_no_nl l : ~ In 10 l -> forall acc t, lines_from acc (l ++ 10 :: t) = (rev acc ++ l ++ [10]) :: lines_from [] t.
Proof.
  induction l as [|c l IH]; intros N acc t; cbn [app lines_from].
  - reflexivity.
  - change NL with 10. destruct (Z.eqb_spec c 10) as [->|_]; [exfalso; apply N; now left|]. rewrite IH by (intros X; apply N; now right).
    cbn [rev]. now rewrite <- app_assoc.
Qed.
Lemma lines_from_last l : ~ In 10 l -> forall acc, lines_from acc l = match rev acc ++ l with [] => [] | x => [x] end.
Proof.
  induction l as [|c l IH]; intros N acc; cbn [lines_from].
  - rewrite app_nil_r. destruct acc as [|a acc]; [reflexivity|]. cbn [rev]. destruct (rev acc ++ [a]) eqn:E; [|reflexivity].
    apply app_eq_nil in E as [_ E]. discriminate.
  - change NL with 10. destruct (Z.eqb_spec c 10) as [->|_]; [exfalso; apply N; now left|]. rewrite IH by (intros X; apply N; now right).
    cbn [rev]. now rewrite <- app_assoc.
Qed.
Lemma universal_plain l t : ~ In 13 l -> universal (l ++ t) = l ++ universal t.
Proof.
  induction l as [|c l IH]; intros N; [reflexivity|]. cbn [app universal]. change CR with 13. destruct (Z.eqb_spec c 13) as [->|_]; [exfalso; apply N; now left|].
  f_equal. apply IH. intros X; apply N; now right.
Qed.
(** What the readers see: the lines of the file, each with a line feed, except perhaps the last *)
Lemma file_lines_spec ls f : file_of ls f -> Forall2 (fun raw l => raw = l ++ [10] \/ raw = l) (file_lines f) ls.
Proof.
  unfold file_lines. induction 1 as [|l N A B|l e r ls A B E F IH].
  - constructor.
  - rewrite <- (app_nil_r l) at 1. rewrite universal_plain by assumption. cbn [universal]. rewrite app_nil_r, lines_from_last by assumption. cbn [rev app].
    destruct l; [congruence|]. constructor; [now right|constructor].
  - rewrite universal_plain by assumption.
    assert (U : universal (e ++ r) = 10 :: universal r).
    { destruct E as [->|[->|(-> & E)]]; cbn [app universal]; try reflexivity. change CR with 13. rewrite Z.eqb_refl. change NL with 10.
      destruct r as [|c r]; [reflexivity|]. cbn [hd] in E. destruct (Z.eqb_spec c 10); [congruence|reflexivity]. }
    rewrite U, lines_from_no_nl by assumption. cbn [rev app]. constructor; [now left|exact IH].
Qed.
(** Every text is a file with lines. *)
Lemma file_of_exists f : exists ls, file_of ls f.
Proof.
  assert (G : forall n f, (length f <= n)%nat -> exists ls, file_of ls f).
  { clear f. induction n as [|n IH]; intros f H.
    - destruct f; [|cbn in H; lia]. exists []. constructor.
    - destruct f as [|c f]; [exists []; constructor|].
      assert (S : exists l r, c :: f = l ++ r /\ ~ In 10 l /\ ~ In 13 l /\ (r = [] \/ hd 0 r = 10 \/ hd 0 r = 13)).
      { clear. induction (c :: f) as [|x t (l & r & -> & A & B & E)]; [exists [], []; cbn; auto|].
        destruct (Z.eq_dec x 10) as [->|N1]; [exists [], (10 :: l ++ r); cbn; repeat split; auto|].
        destruct (Z.eq_dec x 13) as [->|N2]; [exists [], (13 :: l ++ r); cbn; repeat split; auto|].
        exists (x :: l), r. cbn. repeat split; auto; intros [X|X]; auto. }
      destruct S as (l & r & E & A & B & R). rewrite E in *. rewrite app_length in H. destruct r as [|x r].
      + exists [l]. rewrite app_nil_r. rewrite app_nil_r in E. constructor; auto. intros ->. discriminate.
      + destruct R as [R|R]; [discriminate|]. cbn [hd] in R. cbn [length] in H. destruct R as [-> | ->].
        * destruct (IH r) as (ls & F); [lia|]. exists (l :: ls). apply (F_line l [10] r); auto.
        * destruct r as [|y r].
          -- exists [l]. apply (F_line l [13] []); auto; [|constructor]. right; right. split; [reflexivity|cbn; lia].
          -- destruct (Z.eq_dec y 10) as [->|N].
             ++ cbn [length] in H. destruct (IH r) as (ls & F); [lia|]. exists (l :: ls). apply (F_line l [13; 10] r); auto.
             ++ destruct (IH (y :: r)) as (ls & F); [lia|]. exists (l :: ls). apply (F_line l [13] (y :: r)); auto. }
  eapply G. reflexivity.
Qed.

(** ** Stripped lines *)
Lemma newline_blank : blank [10].
Proof. constructor; [cbn; tauto|constructor]. Qed.
Lemma strip_eol raw l : raw = l ++ [10] \/ raw = l -> blank l \/ strip raw = strip l.
Proof.
  intros [-> | ->]; [|now right]. unfold strip. destruct (lstrip_split l) as (s & E & B).
  destruct (lstrip l) as [|c r] eqn:L; [left; rewrite E; apply blank_app; split; [exact B|constructor]|]. right.
  assert (X : lstrip (l ++ [10]) = (c :: r) ++ [10]).
  { rewrite E. clear - B L. destruct (lstrip_hd l) as [X|X]; rewrite L in X; [discriminate|]. cbn [hd] in X. clear L.
    induction s as [|x s IH]; cbn [app lstrip].
    - apply not_space_white in X. now rewrite X.
    - inversion B as [|? ? Hx Hs]; subst. apply is_space_white in Hx. rewrite Hx. now apply IH. }
  rewrite X. apply rstrip_app, newline_blank.
Qed.
Lemma words_eol raw l : raw = l ++ [10] \/ raw = l -> words raw = words l.
Proof.
  intros [-> | ->]; [|reflexivity]. unfold words. apply words_from_app_blank, newline_blank.
Qed.
Lemma blank_eol raw l : raw = l ++ [10] \/ raw = l -> (blank raw <-> blank l).
Proof.
  intros [-> | ->]; [|reflexivity]. rewrite blank_app. split; [now intros []|]. intros H. split; [exact H|apply newline_blank].
Qed.
Lemma words_nil t : words t = [] <-> blank t.
Proof. rewrite <- words_spec. split; [intros H; now inversion H|now constructor]. Qed.
Lemma strip_words_hd t : strip t <> [] -> ~ In (hd 0 (strip t)) white.
Proof.
  unfold strip. intros N. rewrite rstrip_hd by assumption. destruct (lstrip_hd t) as [E|E]; [|exact E]. rewrite E in N. now exfalso; apply N.
Qed.
Lemma starts_strip p t : p <> [] -> Forall (fun c => ~ In c white) p ->
  starts p (strip t) = match words t with w :: _ => starts p w | [] => false end.
Proof.
  intros NP Sp. rewrite <- (words_strip t). pose proof (words_line_words (strip t)) as L.
  destruct (strip t) as [|c l] eqn:E.
  - cbn. destruct p; [congruence|reflexivity].
  - assert (H : ~ In (hd 0 (strip t)) white) by (apply strip_words_hd; congruence). rewrite E in H. inversion L as [s B Es|s w r ws B (Nw & Sw) R L' Es]; subst.
    + inversion B; subst. contradiction.
    + destruct s as [|x s]; [|cbn in Es; injection Es as -> _; inversion B; subst; contradiction]. cbn [app].
      destruct (starts p w) eqn:X; [now apply starts_app|]. apply not_true_iff_false. intros Y. apply not_true_iff_false in X. apply X.
      apply starts_begins in Y as (q & Y). apply starts_begins. clear - Y Sp R Sw. revert p Sp Y. induction w as [|a w IH]; intros p Sp Y.
      * destruct p as [|b p]; [now exists []|]. cbn in Y. destruct R as [-> |R]; [discriminate|]. rewrite Y in R. cbn in R. inversion Sp; subst. contradiction.
      * destruct p as [|b p]; [now exists (a :: w)|]. cbn in Y. injection Y as -> Y. inversion Sp; subst. inversion Sw; subst.
        destruct (IH H4 p) as (z & ->); auto. now exists z.
Qed.
Lemma strip_trimmed l body : trimmed l body <-> strip l = body.
Proof.
  assert (G : forall body, trimmed l body -> strip l = body).
  { intros b (s & e & -> & Bs & Be & H). unfold strip.
    assert (LS : forall s t, blank s -> lstrip (s ++ t) = lstrip t).
    { clear. induction s as [|c s IH]; intros t B; [reflexivity|]. inversion B as [|? ? Hc Hs]; subst. cbn. apply is_space_white in Hc. rewrite Hc. auto. }
    rewrite LS by assumption. destruct H as [-> |(H1 & H2)].
    - cbn [app]. rewrite <- (app_nil_r e). rewrite LS by assumption. reflexivity.
    - destruct b as [|c b].
      + cbn [app]. rewrite <- (app_nil_r e), LS by assumption. reflexivity.
      + assert (X : lstrip ((c :: b) ++ e) = (c :: b) ++ e). { cbn [hd] in H1. apply not_space_white in H1. cbn. now rewrite H1. }
        rewrite X, rstrip_app by assumption. destruct (rstrip_split (c :: b)) as (z & Ez & Bz). destruct (rev z) as [|y z'] eqn:Er.
        * assert (z = []) by (rewrite <- (rev_involutive z), Er; reflexivity). subst z. rewrite app_nil_r in Ez. now symmetry.
        * exfalso. assert (Z1 : z = rev z' ++ [y]) by (rewrite <- (rev_involutive z), Er; reflexivity). apply H2. rewrite Ez, Z1, app_assoc, last_last.
          rewrite Z1 in Bz. apply blank_app in Bz as (_ & Bz). now inversion Bz. }
  split; [apply G|]. intros <-. unfold strip. destruct (lstrip_split l) as (s & Es & Bs). destruct (rstrip_split (lstrip l)) as (e & Ee & Be).
  exists s, e. split; [congruence|]. split; [exact Bs|]. split; [exact Be|].
  destruct (rstrip_all (lstrip l)) as [|c r] eqn:R; [now left|]. right. split.
  - rewrite <- R, rstrip_hd by congruence. destruct (lstrip_hd l) as [X|X]; [rewrite X in R; discriminate|exact X].
  - assert (NE : c :: r <> []) by discriminate. destruct (exists_last NE) as (b & y & E). rewrite E, last_last. intros W.
    rewrite E in R. rewrite Ee in R. rewrite E in R. rewrite rstrip_app in R by assumption. rewrite rstrip_app in R by (constructor; [exact W|constructor]).
    destruct (rstrip_split b) as (q & Eq & _). rewrite Eq in R at 2. apply (f_equal (@length Z)) in R. rewrite !app_length in R. cbn in R. lia.
Qed.

(** ** Commas *)
Lemma commas_split t ws : commas t ws <-> split_on comma t = ws.
Proof.
  split.
  - induction 1 as [t N|w t ws N C IH]; [now apply split_on_plain|]. change 44 with comma. rewrite split_on_app by assumption. now rewrite IH.
  - revert ws. assert (G : commas t (split_on comma t)); [|intros ws <-; exact G]. induction t as [|c t IH]; [constructor; auto|]. cbn [split_on].
    destruct (Z.eqb_spec c comma) as [-> |N].
    + apply (K_more [] t); [auto|exact IH].
    + inversion IH as [t' N' E1|w t' ws N' C E1]; subst.
      * constructor. intros [X|X]; [unfold comma in N; congruence|contradiction].
      * change (c :: w ++ 44 :: t') with ((c :: w) ++ 44 :: t'). constructor; [|exact C]. intros [X|X]; [unfold comma in N; congruence|contradiction].
Qed.
