(** The layout of a built dictionary. *)
From Coq Require Import List ZArith Lia Bool Arith.
From Verif Require Import Base Utf8 M_Builder M_Lattice M_Bytes P_Bytes M_DicReader M_DicBuilder P_DicFormat.
Import ListNotations.
Open Scope Z_scope.

Section layout.
Variable k : kind.
Variable py_int : text -> res Z.
Variable is_digit : Z -> bool.
Variable entries : list entry.

(** The bytes of the word infos of a list of entries *)
Inductive written : list text -> list entry -> list bytes -> Prop :=
| W_nil table : written table [] []
| W_cons table e r b table' bs :
    put_word_info k py_int is_digit entries table e = Ok (b, table') -> written table' r bs -> written table (e :: r) (b :: bs).

Lemma written_length table l bs : written table l bs -> length bs = length l.
Proof. induction 1; simpl; auto. Qed.

Lemma written_nth table l bs : written table l bs -> forall i e, nth_error l i = Some e ->
  exists b t t', nth_error bs i = Some b /\ put_word_info k py_int is_digit entries t e = Ok (b, t').
Proof.
  induction 1; intros [|i] x Hi; try discriminate; simpl in *.
  - inversion Hi; subst. eauto 10.
  - eauto.
Qed.

Lemma put_length_nonempty n b : put_length n = Ok b -> b <> [].
Proof.
  unfold put_length. destruct (n <=? 127); intros H.
  - apply put_byte_ok in H as [-> _]. discriminate.
  - apply bind_ok in H as (a & Ha & H). apply bind_ok in H as (c & Hc & [= <-]).
    apply put_byte_ok in Ha as [-> _]. discriminate.
Qed.

Lemma put_string_nonempty t b : put_string t = Ok b -> b <> [].
Proof.
  unfold put_string. intros H. apply bind_ok in H as (a & Ha & H). apply bind_ok in H as (c & Hc & [= <-]).
  apply put_length_nonempty in Ha. destruct a; [congruence|discriminate].
Qed.

Lemma put_word_info_nonempty table e b t' : put_word_info k py_int is_digit entries table e = Ok (b, t') -> b <> [].
Proof.
  unfold put_word_info. intros H. apply bind_ok in H as (b1 & H1 & H).
  repeat (apply bind_ok in H as (? & ? & H); try match goal with x : _ * _ |- _ => destruct x end).
  inversion H; subst. apply put_string_nonempty in H1. destruct b1; [congruence|discriminate].
Qed.

(** Where the infos go and which offsets are kept *)
Fixpoint starts (o : nat) (bs : list bytes) : list nat :=
  match bs with [] => [] | b :: r => o :: starts (o + length b) r end.

Lemma f_write_gap f b : b <> [] -> (length (f_data f) <= f_pos f)%nat ->
  f_write f b = File (f_data f ++ repeat 0 (f_pos f - length (f_data f)) ++ b) (f_pos f + length b).
Proof.
  intros Hb Hp. destruct b as [|x b]; [congruence|]. unfold f_write.
  rewrite firstn_all2 by lia. rewrite (skipn_all2 (f_data f)) by lia. rewrite app_nil_r. reflexivity.
Qed.

Lemma write_infos_spec l : forall table out out' os,
  write_infos k py_int is_digit entries table out l = Ok (out', os) -> (length (f_data out) <= f_pos out)%nat ->
  exists bs, written table l bs
    /\ put_all (fun o => put_int (Z.of_nat o)) (starts (f_pos out) bs) = Ok os
    /\ f_pos out' = (f_pos out + length (concat bs))%nat
    /\ (l = [] -> out' = out)
    /\ (l <> [] -> f_data out' = f_data out ++ repeat 0 (f_pos out - length (f_data out)) ++ concat bs).
Proof.
  induction l as [|e l IH]; cbn [write_infos]; intros table out out' os H Hp.
  - inversion H; subst. exists []. split; [constructor|]. repeat split; auto; try congruence; simpl; lia.
  - apply bind_ok in H as (o & Ho & H). apply bind_ok in H as ((b & t') & Hb & H).
    apply bind_ok in H as ((out2 & os2) & Hr & [= <- <-]).
    pose proof (put_word_info_nonempty _ _ _ _ Hb) as Nb.
    rewrite f_write_gap in Hr by auto. apply IH in Hr as (bs & W & Po & Fp & Fn & Fd).
    2:{ cbn [f_pos f_data]. rewrite !app_length, repeat_length. lia. }
    cbn [f_pos f_data] in *.
    exists (b :: bs). split; [econstructor; eauto|].
    split.
    { cbn [starts put_all]. unfold f_tell in Ho. rewrite Ho. cbn [bind]. rewrite Po. reflexivity. }
    split; [cbn [concat]; rewrite app_length; lia|]. split; [congruence|].
    intros _. destruct l as [|e2 l2].
    + rewrite (Fn eq_refl). inversion W; subst. cbn [f_data concat]. now rewrite app_nil_r.
    + rewrite Fd by discriminate.
      replace (f_pos out + length b - length (f_data out ++ repeat 0%Z (f_pos out - length (f_data out)) ++ b))%nat with O
        by (rewrite !app_length, repeat_length; lia).
      cbn [repeat app concat]. now rewrite <- !app_assoc.
Qed.

Lemma starts_length o bs : length (starts o bs) = length bs.
Proof. revert o. induction bs; simpl; auto. Qed.

Lemma put_all_int_nat_length (l : list nat) b : put_all (fun o => put_int (Z.of_nat o)) l = Ok b -> length b = (4 * length l)%nat.
Proof. intros H. now apply (uints_ok l b []) in H as [_ L]. Qed.

(** dictionarybuilder.py:270-304: the offsets follow what was written before, and the
    word infos come behind them. *)
Lemma write_wordinfo_spec table d f :
  write_wordinfo k py_int is_digit entries table (File d (length d)) = Ok f -> (length entries <= length d)%nat ->
  exists bs offs pad,
    written table entries bs
    /\ put_all (fun o => put_int (Z.of_nat o)) (starts (4 * length d + length entries) bs) = Ok offs
    /\ f_data f = d ++ offs ++ pad ++ concat bs
    /\ (entries <> [] -> length (d ++ offs ++ pad) = (4 * length d + length entries)%nat)
    /\ (entries = [] -> offs ++ pad ++ concat bs = []).
Proof.
  unfold write_wordinfo. cbn [f_tell f_pos f_seek f_data]. intros H Hn.
  apply bind_ok in H as ((out & offs) & H & [= <-]).
  apply write_infos_spec in H as (bs & W & Po & Fp & Fn & Fd); [|cbn [f_seek f_pos f_data]; lia].
  cbn [f_seek f_pos f_data] in *.
  replace (length d * 4 + length entries)%nat with (4 * length d + length entries)%nat in * by lia.
  pose proof (put_all_int_nat_length _ _ Po) as L. rewrite starts_length, (written_length _ _ _ W) in L.
  exists bs, offs.
  destruct (list_eq_dec Z.eq_dec offs []) as [->|No].
  { exists []. assert (entries = []) as E by (apply length_zero_iff_nil; cbn [length] in L; lia).
    rewrite (Fn E). rewrite E in W. inversion W; subst. repeat split; auto; try congruence.
    cbn [f_write f_data f_seek concat app]. now rewrite app_nil_r. }
  exists (repeat 0 (4 * length d + length entries - length d - length offs)).
  assert (E : entries <> []) by (intros E; rewrite E in L; apply length_zero_iff_nil in L; congruence).
  split; auto. split; auto. split.
  - unfold f_write. destruct offs as [|x o] eqn:Eo; [congruence|]. rewrite <- Eo in *. clear Eo x o.
    cbn [f_data f_pos f_seek]. rewrite (Fd E).
    rewrite firstn_app, firstn_all, Nat.sub_diag. cbn [firstn]. rewrite app_nil_r. f_equal.
    rewrite !app_length. replace (length d - _)%nat with O by lia. cbn [repeat app]. f_equal.
    rewrite skipn_app. rewrite skipn_all2 by lia. cbn [app].
    replace (length d + length offs - length d)%nat with (length offs) by lia.
    rewrite skipn_app, repeat_length.
    replace (length offs - (4 * length d + length entries - length d))%nat with O by lia. cbn [skipn].
    f_equal. clear. generalize (4 * length d + length entries - length d)%nat. intros m.
    revert m. induction (length offs); intros m; [now rewrite Nat.sub_0_r|].
    destruct m; [reflexivity|]. simpl. apply IHn.
  - split; [intros _; rewrite !app_length, repeat_length; lia|congruence].
Qed.

(** The start of the [i]-th info *)
Lemma starts_at o bs i b : nth_error bs i = Some b ->
  exists p pre post, nth_error (starts o bs) i = Some p /\ concat bs = pre ++ b ++ post /\ p = (o + length pre)%nat.
Proof.
  revert o i. induction bs as [|x bs IH]; intros o [|i] H; try discriminate; cbn [nth_error starts concat] in *.
  - inversion H; subst. exists o, [], (concat bs). repeat split; auto; simpl; lia.
  - destruct (IH (o + length x)%nat i H) as (p & pre & post & H1 & H2 & ->).
    eexists _, (x ++ pre), post. split; [exact H1|]. rewrite H2, <- app_assoc. split; auto.
    rewrite app_length. lia.
Qed.

Lemma put_all_at {A} (f : A -> res bytes) w l : (forall x b, f x = Ok b -> length b = w) ->
  forall b i x, put_all f l = Ok b -> nth_error l i = Some x ->
  exists c pre post, f x = Ok c /\ b = pre ++ c ++ post /\ length pre = (w * i)%nat.
Proof.
  intros Hw. induction l as [|y l IH]; intros b [|i] x H Hi; try discriminate; cbn [put_all nth_error] in *.
  - inversion Hi; subst. apply bind_ok in H as (c & Hc & H). apply bind_ok in H as (r & Hr & [= <-]).
    exists c, [], r. repeat split; auto; simpl; lia.
  - apply bind_ok in H as (c & Hc & H). apply bind_ok in H as (r & Hr & [= <-]).
    destruct (IH _ _ _ Hr Hi) as (c' & pre & post & H1 & -> & L).
    exists c', (c ++ pre), post. rewrite <- app_assoc. repeat split; auto.
    rewrite app_length, L, (Hw _ _ Hc). lia.
Qed.

(** Both together: an entry's info stands in the file at the place that its offset says. *)
Lemma info_at table d f : write_wordinfo k py_int is_digit entries table (File d (length d)) = Ok f -> (length entries <= length d)%nat ->
  forall i e, nth_error entries i = Some e ->
  exists b t t' o p,
    put_word_info k py_int is_digit entries t e = Ok (b, t')
    /\ put_int (Z.of_nat p) = Ok o
    /\ At (f_data f) (length d + 4 * i) o
    /\ At (f_data f) p b.
Proof.
  intros H Hn i e Hi.
  destruct (write_wordinfo_spec _ _ _ H Hn) as (bs & offs & pad & W & Po & Fd & Fl & _).
  destruct (written_nth _ _ _ W _ _ Hi) as (b & t & t' & Hb & Hput).
  destruct (starts_at (4 * length d + length entries) _ _ _ Hb) as (p & pre & post & Hp & Hc & ->).
  destruct (put_all_at _ 4 _ (fun x b H => proj1 (put_int_ok _ _ H)) _ _ _ Po Hp) as (o & pre' & post' & Ho & Eo & Lo).
  exists b, t, t', o, (4 * length d + length entries + length pre)%nat. repeat split; auto.
  - rewrite Fd, Eo. exists (d ++ pre'), (post' ++ pad ++ concat bs). rewrite app_length, Lo, <- !app_assoc. auto.
  - assert (E : entries <> []) by (intros E; rewrite E in Hi; destruct i; discriminate).
    rewrite Fd, Hc. exists (d ++ offs ++ pad ++ pre), post. rewrite <- !app_assoc. split; auto.
    specialize (Fl E). rewrite !app_length in *. lia.
Qed.
End layout.
