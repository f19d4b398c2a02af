(** Which katakana words are joined: proofs *)
From Coq Require Import List ZArith Lia Bool Arith.
From Verif Require Import Base Utf8 M_Builder M_InputText M_Lattice M_NumericParser M_PathRewrite
  S_Text S_Lattice S_Rewrite S_Join P_Builder P_InputText P_Accessors P_Tokenizer P_Path P_Rewrite.
Import ListNotations.
Open Scope nat_scope.

Lemma span {A} (f : A -> bool) (l : list A) : exists r p, l = r ++ p /\ Forall (fun x => f x = true) r /\ (forall x, hd_error p = Some x -> f x = false).
Proof.
  induction l as [|x l (r & p & -> & F & H)].
  - exists [], []. repeat split; [constructor|discriminate].
  - destruct (f x) eqn:E; [exists (x :: r), p; repeat split; auto|].
    exists [], (x :: r ++ p). repeat split; [constructor|]. intros y [= <-]. exact E.
Qed.

Section kata.
Variable lexinfo : Z -> res word_info.
Context {t orig : text} {m2o : list nat} {cats : list (list cat)} {it : input_text}.
Context (B : built t orig m2o cats it).
Notation n := (length (it_bytes it)).
Variable cfg : katakana_cfg.
Variable lat : lattice.
Hypothesis LE : lists_end n lat.

Definition kb (w : wnode) : bool := match is_katakana it w with Ok b => b | Err _ => false end.
Definition sb (w : wnode) : bool := match can_oov_bow it w with Ok b => b | Err _ => false end.
Definition tb (w : wnode) : bool := match kata_trigger cfg it w with Ok b => b | Err _ => false end.
Lemma kb_ok w : inside n w -> is_katakana it w = Ok (kb w).
Proof. intros I. unfold kb. destruct (is_katakana_total B w I) as (b & ->). reflexivity. Qed.
Lemma sb_ok w : inside n w -> can_oov_bow it w = Ok (sb w).
Proof. intros I. unfold sb. destruct (can_oov_bow_total B w I) as (b & ->). reflexivity. Qed.
Lemma tb_ok w : inside n w -> kata_trigger cfg it w = Ok (tb w).
Proof. intros I. unfold tb. destruct (kata_trigger_total B cfg w I) as (b & ->). reflexivity. Qed.

Lemma kb_iff w : kb w = true <-> katakana_word it w.
Proof. rewrite <- is_katakana_true. unfold kb. destruct (is_katakana it w) as [b|]; split; congruence. Qed.
Lemma kb_not w : kb w = false <-> ~ katakana_word it w.
Proof. rewrite <- kb_iff. destruct (kb w); split; congruence. Qed.
Lemma sb_iff w : sb w = true <-> oov_may_start it w.
Proof.
  unfold sb, can_oov_bow, oov_may_start. destruct (get_cats_at it (w_begin w)) as [cs|]; cbn [bind].
  - rewrite negb_true_iff. split.
    + intros E. exists cs. split; [reflexivity|]. rewrite <- cat_mem_In. congruence.
    + intros (cs' & [= <-] & N). rewrite <- cat_mem_In in N. destruct (cat_mem NOOOVBOW cs); congruence.
  - split; [discriminate|]. intros (cs & E & _). discriminate.
Qed.
Lemma sb_not w : sb w = false <-> ~ oov_may_start it w.
Proof. rewrite <- sb_iff. destruct (sb w); split; congruence. Qed.
Lemma pos_within p : p <= n -> exists k, char_pos (t := t) (it := it) p k /\ forall k', within t p k' <-> k' = k.
Proof.
  intros Hp. destruct (char_pos_exists B p Hp) as (k & Hk). exists k. split; [exact Hk|].
  assert (L : n = char_start t (length t)) by (symmetry; exact (len_bytes B)).
  assert (X : forall k', within t p k' <-> char_pos (t := t) (it := it) p k') by (intros k'; unfold within, char_pos; rewrite L; reflexivity).
  intros k'. rewrite X. split; [|intros ->; exact Hk].
  intros H. apply (char_pos_bi B) in H. apply (char_pos_bi B) in Hk. congruence.
Qed.
Lemma tb_iff w : inside n w -> tb w = true <-> asks_to_join it (jk_min cfg) w.
Proof.
  intros I. unfold tb, kata_trigger, asks_to_join. rewrite <- kb_iff. destruct (w_oov w); cbn [bind].
  - rewrite (kb_ok w I). tauto.
  - unfold is_shorter, fewer_than. rewrite (bt_mod B). destruct I as (I1 & I2).
    destruct (pos_within (w_begin w) ltac:(lia)) as (i & Ci & Ui). destruct (pos_within (w_end w) I2) as (j & Cj & Uj).
    rewrite (code_point_count_spec B _ _ _ _ Ci Cj). cbn [bind].
    assert (E : (exists i0 j0, within t (w_begin w) i0 /\ within t (w_end w) j0 /\ (Z.of_nat j0 - Z.of_nat i0 < jk_min cfg)%Z) <-> (Z.of_nat j - Z.of_nat i < jk_min cfg)%Z).
    { split; [intros (i0 & j0 & A & C & D); apply Ui in A; apply Uj in C; subst; exact D|intros D; exists i, j; rewrite Ui, Uj; auto]. }
    rewrite E. destruct (Z.ltb_spec (Z.of_nat j - Z.of_nat i) (jk_min cfg)).
    + rewrite (kb_ok w (conj I1 I2)). intuition.
    + split; [discriminate|]. intros ([X|X] & _); [discriminate|lia].
Qed.
Lemma tb_not w : inside n w -> tb w = false <-> ~ asks_to_join it (jk_min cfg) w.
Proof. intros I. rewrite <- (tb_iff w I). destruct (tb w); split; congruence. Qed.
Lemma tb_kb w : inside n w -> kb w = false -> tb w = false.
Proof. intros I K. apply (tb_not w I). intros (_ & X). apply kb_iff in X. congruence. Qed.

Notation K := (fun w => kb w = true).

(** ** The three searches *)
Lemma begin_run A r p : Forall (inside n) (A ++ r ++ p) -> Forall K r -> (forall x, hd_error (rev A) = Some x -> kb x = false) ->
  forall j, j <= length r -> kata_begin it (A ++ r ++ p) (length A + j) = Ok (length A).
Proof.
  intros F FK HA j. induction j as [|j IH]; intros Hj.
  - rewrite Nat.add_0_r. destruct A as [|x A _] using rev_ind; [reflexivity|]. rewrite app_length. cbn [length].
    replace (length A + 1) with (S (length A)) by lia. cbn [kata_begin]. rewrite <- app_assoc. cbn [app].
    assert (G : get (A ++ x :: r ++ p) (length A) = Ok x) by (unfold get; rewrite nth_error_app2, Nat.sub_diag by lia; reflexivity).
    rewrite G. cbn [bind]. rewrite (kb_ok x).
    + rewrite (HA x) by (rewrite rev_unit; reflexivity). reflexivity.
    + eapply Forall_forall in F; [exact F|]. rewrite !in_app_iff. left. right. now left.
  - replace (length A + S j) with (S (length A + j)) by lia. cbn [kata_begin].
    destruct (nth_error r j) as [x|] eqn:E; [|apply nth_error_None in E; lia].
    assert (G : get (A ++ r ++ p) (length A + j) = Ok x).
    { unfold get. rewrite nth_error_app2 by lia. replace (length A + j - length A) with j by lia. rewrite nth_error_app1, E by lia. reflexivity. }
    rewrite G. cbn [bind]. apply nth_error_In in E. rewrite (kb_ok x).
    + rewrite Forall_forall in FK. rewrite (FK _ E). cbn [bind]. apply IH. lia.
    + eapply Forall_forall in F; [exact F|]. rewrite !in_app_iff. auto.
Qed.
Lemma end_run r : forall A p, Forall (inside n) (A ++ r ++ p) -> Forall K r -> (forall x, hd_error p = Some x -> kb x = false) ->
  kata_end it (A ++ r ++ p) (length A) (length r + length p) = Ok (length A + length r).
Proof.
  induction r as [|x r IH]; intros A p F FK HP.
  - cbn [length app plus]. rewrite Nat.add_0_r. destruct p as [|x p]; [reflexivity|]. cbn [length kata_end].
    assert (G : get (A ++ x :: p) (length A) = Ok x) by (unfold get; rewrite nth_error_app2, Nat.sub_diag by lia; reflexivity).
    rewrite G. cbn [bind]. rewrite (kb_ok x), (HP x eq_refl); [reflexivity|].
    eapply Forall_forall in F; [exact F|]. apply in_app_iff. right. now left.
  - cbn [length plus kata_end app].
    assert (G : get (A ++ x :: r ++ p) (length A) = Ok x) by (unfold get; rewrite nth_error_app2, Nat.sub_diag by lia; reflexivity).
    rewrite G. cbn [bind]. inversion FK; subst. rewrite (kb_ok x).
    + rewrite H1. cbn [bind]. change (A ++ x :: r ++ p) with (A ++ ([x] ++ r ++ p)). rewrite app_assoc.
      replace (S (length A)) with (length (A ++ [x])) by (rewrite app_length; cbn; lia).
      rewrite IH; [f_equal; rewrite app_length; cbn; lia| |assumption|assumption]. rewrite <- app_assoc. exact F.
    + eapply Forall_forall in F; [exact F|]. apply in_app_iff. right. now left.
Qed.
Lemma skip_run s : forall A g p, Forall (inside n) (A ++ s ++ g ++ p) -> Forall (fun x => sb x = false) s -> (forall x, hd_error g = Some x -> sb x = true) ->
  skip_nobow it (A ++ s ++ g ++ p) (length A) (length s + length g) = Ok (length A + length s).
Proof.
  induction s as [|x s IH]; intros A g p F FS HG.
  - cbn [length app plus]. rewrite Nat.add_0_r. destruct g as [|x g]; [reflexivity|]. cbn [length skip_nobow].
    assert (G : get (A ++ (x :: g) ++ p) (length A) = Ok x) by (unfold get; rewrite nth_error_app2, Nat.sub_diag by lia; reflexivity).
    rewrite G. cbn [bind]. rewrite (sb_ok x), (HG x eq_refl); [reflexivity|].
    eapply Forall_forall in F; [exact F|]. apply in_app_iff. right. now left.
  - cbn [length plus skip_nobow app].
    assert (G : get (A ++ x :: s ++ g ++ p) (length A) = Ok x) by (unfold get; rewrite nth_error_app2, Nat.sub_diag by lia; reflexivity).
    rewrite G. cbn [bind]. inversion FS; subst. rewrite (sb_ok x).
    + rewrite H1. cbn [bind]. change (A ++ x :: s ++ g ++ p) with (A ++ ([x] ++ s ++ g ++ p)). rewrite app_assoc.
      replace (S (length A)) with (length (A ++ [x])) by (rewrite app_length; cbn; lia).
      rewrite IH; [f_equal; rewrite app_length; cbn; lia| |assumption|assumption]. rewrite <- app_assoc. exact F.
    + eapply Forall_forall in F; [exact F|]. apply in_app_iff. right. now left.
Qed.

Definition J (g : list wnode) (w : wnode) : Prop := katakana_group lexinfo it lat (jk_pos cfg) g [] w.
Notation loop := (kata_loop lexinfo cfg it lat).

(** ** One run *)
Section run.
Variable A s g p : list wnode.
Notation r := (s ++ g).
Notation path := (A ++ (s ++ g) ++ p).
Hypothesis Tiles : tiles 0 (map to_step path) n.
Hypothesis Infos : Forall (info_ok lexinfo) r.
Hypothesis FK : Forall K r.
Hypothesis HA : forall x, hd_error (rev A) = Some x -> kb x = false.
Hypothesis HP : forall x, hd_error p = Some x -> kb x = false.
Hypothesis FS : Forall (fun x => sb x = false) s.
Hypothesis HG : forall x, hd_error g = Some x -> sb x = true.

Lemma run_inside : Forall (inside n) path.
Proof. exact (tiles_inside _ _ _ Tiles). Qed.
Lemma run_at j x : nth_error r j = Some x -> nth_error path (length A + j) = Some x /\ inside n x /\ j < length r.
Proof.
  intros E. assert (L : j < length r) by (apply nth_error_Some; congruence). split; [|split; [|exact L]].
  - rewrite nth_error_app2 by lia. replace (length A + j - length A) with j by lia. rewrite nth_error_app1 by exact L. exact E.
  - pose proof run_inside as F. eapply Forall_forall in F; [exact F|]. apply nth_error_In in E. rewrite !in_app_iff in *. auto.
Qed.
(** a word that does not ask, or a run that is too short *)
Lemma run_step f j x : nth_error r j = Some x -> tb x = false \/ length g <= 1 ->
  loop (S f) path (length A + j) = loop f path (S (length A + j)).
Proof.
  intros E H. destruct (run_at j x E) as (Nx & Ix & Lj). cbn [kata_loop].
  destruct (Nat.leb_spec (length path) (length A + j)) as [L|L]; [rewrite !app_length in *; lia|].
  unfold get at 1. rewrite Nx. cbn [bind]. rewrite (tb_ok x Ix). cbn [bind]. destruct (tb x) eqn:Et; cbn [negb]; [|reflexivity].
  destruct H as [H|H]; [discriminate|].
  rewrite (begin_run A r p run_inside FK HA j) by lia. cbn [bind].
  assert (En : kata_end it path (S (length A + j)) (length path - S (length A + j)) = Ok (length A + length r)).
  { assert (Ej : path = (A ++ firstn (S j) r) ++ skipn (S j) r ++ p) by (rewrite <- (app_assoc A), (app_assoc (firstn _ r)), firstn_skipn; reflexivity).
    assert (Lf : length (A ++ firstn (S j) r) = S (length A + j)) by (rewrite app_length, firstn_length, Nat.min_l by lia; lia).
    rewrite Ej at 1. rewrite <- Lf. replace (length path - length (A ++ firstn (S j) r)) with (length (skipn (S j) r) + length p).
    2:{ pose proof (app_length s g). rewrite Lf, skipn_length, !app_length. lia. }
    rewrite end_run; [|rewrite <- Ej; exact run_inside|apply Forall_forall; intros y Hy; rewrite Forall_forall in FK; apply FK; rewrite <- (firstn_skipn (S j) r); apply in_app_iff; now right|exact HP].
    f_equal. rewrite Lf, skipn_length. lia. }
  rewrite En. cbn [bind]. replace (length A + length r - length A) with (length s + length g) by (rewrite app_length; lia).
  assert (Es : path = A ++ s ++ g ++ p) by (rewrite <- !app_assoc; reflexivity).
  rewrite Es at 1. rewrite (skip_run s A g p) by (try assumption; rewrite <- Es; exact run_inside). cbn [bind].
  rewrite app_length. destruct (Nat.ltb_spec 1 (length A + (length s + length g) - (length A + length s))); [lia|reflexivity].
Qed.
Lemma run_walk : (forall j x, nth_error r j = Some x -> tb x = false \/ length g <= 1) ->
  forall k f, k <= length r -> loop (k + f) path (length A) = loop f path (length A + k).
Proof.
  intros H. assert (G : forall k j f, j + k <= length r -> loop (k + f) path (length A + j) = loop f path (length A + j + k)).
  { induction k as [|k IH]; intros j f L; [rewrite Nat.add_0_r; reflexivity|]. cbn [plus].
    destruct (nth_error r j) as [x|] eqn:E; [|apply nth_error_None in E; lia].
    rewrite (run_step _ j x E (H j x E)). replace (S (length A + j)) with (length A + S j) by lia. rewrite IH by lia. f_equal. lia. }
  intros k f L. specialize (G k 0 f ltac:(lia)). rewrite Nat.add_0_r in G. exact G.
Qed.
(** a run that is joined *)
Lemma run_join i x f : nth_error r i = Some x -> tb x = true -> (forall j y, j < i -> nth_error r j = Some y -> tb y = false) -> 2 <= length g ->
  exists w, J g w /\ tiles 0 (map to_step (A ++ (s ++ [w]) ++ p)) n /\ loop (S (i + f)) path (length A) = loop f (A ++ (s ++ [w]) ++ p) (length (A ++ s) + 2).
Proof.
  intros E Et Before L2. destruct (run_at i x E) as (Nx & Ix & Li).
  assert (Es : path = (A ++ s) ++ g ++ p) by (rewrite <- !app_assoc; reflexivity).
  assert (Lp : length path = length A + length s + length g + length p) by (rewrite !app_length; lia).
  assert (Sl : slice path (length (A ++ s)) (length (A ++ s) + length g) = g).
  { unfold slice. rewrite Es. rewrite app_assoc, firstn_app. replace (length (A ++ s) + length g) with (length ((A ++ s) ++ g)) by (rewrite (app_length (A ++ s) g); reflexivity).
    rewrite firstn_all, Nat.sub_diag. cbn [firstn]. rewrite app_nil_r, skipn_app, skipn_all, Nat.sub_diag. reflexivity. }
  assert (FG : Forall (info_ok lexinfo) g) by (apply Forall_app in Infos; tauto).
  destruct (concatenate_oov_spec lexinfo cfg lat LE path (length (A ++ s)) (length (A ++ s) + length g) Tiles) as (w & first & last & Ec & Nf & Nl & Wb & We & Wr).
  { rewrite app_length. lia. }
  { rewrite Sl. exact FG. }
  assert (Hf : hd_error g = Some first).
  { rewrite <- Sl. apply hd_slice; [lia|exact Nf]. }
  assert (Hl : hd_error (rev g) = Some last).
  { rewrite <- Sl. apply last_slice; [lia|exact Nl]. }
  assert (Sp : splice path (length (A ++ s)) (length (A ++ s) + length g) w = A ++ (s ++ [w]) ++ p).
  { unfold splice. rewrite Es. rewrite firstn_app, firstn_all, Nat.sub_diag. cbn [firstn]. rewrite app_nil_r.
    rewrite (app_assoc (A ++ s) g p). replace (length (A ++ s) + length g) with (length ((A ++ s) ++ g)) by (rewrite (app_length (A ++ s) g); reflexivity).
    rewrite skipn_app, skipn_all, Nat.sub_diag. cbn [skipn app]. rewrite <- !app_assoc. reflexivity. }
  rewrite Sp in Ec. exists w. split; [|split].
  - rewrite Sl in Wr. split; [exact L2|]. split; [|split; [discriminate|split; [|exact Wr]]].
    + apply Forall_app in FK. destruct FK as [_ FK']. eapply Forall_impl; [|exact FK']. intros y. apply kb_iff.
    + intros y Hy. apply sb_iff. apply HG. exact Hy.
  - assert (Jd : joined (fun _ _ _ => True) [] path (A ++ (s ++ [w]) ++ p)).
    { rewrite Es. rewrite <- !app_assoc. apply joined_app; [apply joined_refl|]. apply joined_app; [apply joined_refl|].
      cbn [app]. eapply joined_group; [exact Hf|exact Hl|exact Wb|exact We|exact I|apply joined_refl]. }
    exact (joined_tiles _ _ _ _ Jd _ _ Tiles).
  - assert (W : forall k j f', j + k = i -> loop (k + f') path (length A + j) = loop f' path (length A + i)).
    { induction k as [|k IH]; intros j f' Hk; [rewrite Nat.add_0_r in Hk; subst; reflexivity|]. cbn [plus].
      destruct (nth_error r j) as [y|] eqn:Ey; [|apply nth_error_None in Ey; lia].
      rewrite (run_step _ j y Ey (or_introl (Before j y ltac:(lia) Ey))). replace (S (length A + j)) with (length A + S j) by lia. apply IH. lia. }
    specialize (W i 0 (S f) ltac:(lia)). rewrite Nat.add_0_r in W. replace (S (i + f)) with (i + S f) by lia. rewrite W. clear W.
    cbn [kata_loop]. destruct (Nat.leb_spec (length path) (length A + i)) as [L|L]; [rewrite app_length in Li; lia|].
    unfold get at 1. rewrite Nx. cbn [bind]. rewrite (tb_ok x Ix), Et. cbn [bind negb].
    rewrite (begin_run A r p run_inside FK HA i) by lia. cbn [bind].
    assert (En : kata_end it path (S (length A + i)) (length path - S (length A + i)) = Ok (length A + length r)).
    { assert (Ej : path = (A ++ firstn (S i) r) ++ skipn (S i) r ++ p) by (rewrite <- (app_assoc A), (app_assoc (firstn _ r)), firstn_skipn; reflexivity).
      assert (Lf : length (A ++ firstn (S i) r) = S (length A + i)) by (rewrite app_length, firstn_length, Nat.min_l by lia; lia).
      rewrite Ej at 1. rewrite <- Lf. replace (length path - length (A ++ firstn (S i) r)) with (length (skipn (S i) r) + length p).
      2:{ pose proof (app_length s g). rewrite Lf, skipn_length, !app_length. lia. }
      rewrite end_run; [|rewrite <- Ej; exact run_inside|apply Forall_forall; intros y Hy; rewrite Forall_forall in FK; apply FK; rewrite <- (firstn_skipn (S i) r); apply in_app_iff; now right|exact HP].
      f_equal. rewrite Lf, skipn_length. lia. }
    rewrite En. cbn [bind]. replace (length A + length r - length A) with (length s + length g) by (rewrite app_length; lia).
    assert (Es' : path = A ++ s ++ g ++ p) by (rewrite <- !app_assoc; reflexivity).
    rewrite Es' at 1. rewrite (skip_run s A g p) by (try assumption; rewrite <- Es'; exact run_inside). cbn [bind].
    rewrite app_length. destruct (Nat.ltb_spec 1 (length A + (length s + length g) - (length A + length s))); [|lia].
    replace (length A + (length s + length g)) with (length (A ++ s) + length g) by (rewrite app_length; lia).
    replace (length A + length s) with (length (A ++ s)) by (rewrite app_length; lia). rewrite Ec. reflexivity.
Qed.
End run.

Notation done := (runs_joined (katakana_word it) (asks_to_join it (jk_min cfg)) (oov_may_start it) J).

Lemma loop_end f path i : length path <= i -> loop (S f) path i = Ok path.
Proof. intros H. cbn [kata_loop]. destruct (Nat.leb_spec (length path) i); [reflexivity|lia]. Qed.

Lemma loop_runs m : forall T A f, length T <= m -> length T < f ->
  tiles 0 (map to_step (A ++ T)) n -> Forall (info_ok lexinfo) T -> (forall x, hd_error (rev A) = Some x -> kb x = false) ->
  exists q, loop f (A ++ T) (length A) = Ok (A ++ q) /\ done T q.
Proof.
  induction m as [|m IH]; intros T A f Lm Lf Tl FI HA.
  { destruct T; [|cbn in Lm; lia]. destruct f; [lia|]. exists []. split; [apply loop_end; rewrite app_nil_r; lia|constructor]. }
  destruct (span kb T) as (r & p & -> & FK & HP). destruct r as [|x0 r0] eqn:Er.
  - cbn [app] in *. destruct p as [|x p].
    + destruct f; [cbn in Lf; lia|]. exists []. split; [apply loop_end; rewrite app_nil_r; lia|constructor].
    + specialize (HP x eq_refl). destruct f; [lia|].
      assert (Ix : inside n x) by (apply tiles_inside in Tl; eapply Forall_forall in Tl; [exact Tl|apply in_app_iff; right; now left]).
      cbn [kata_loop]. destruct (Nat.leb_spec (length (A ++ x :: p)) (length A)) as [L|L]; [rewrite app_length in L; cbn in L; lia|].
      unfold get at 1. rewrite nth_error_app2, Nat.sub_diag by lia. cbn [nth_error bind]. rewrite (tb_ok x Ix), (tb_kb x Ix HP). cbn [bind negb].
      destruct (IH p (A ++ [x]) f) as (q & E & D); [cbn in Lm; lia|cbn in Lf; lia|rewrite <- app_assoc; exact Tl|inversion FI; assumption|rewrite rev_unit; intros y [= <-]; exact HP|].
      exists (x :: q). rewrite app_length in E. cbn [length] in E. replace (length A + 1) with (S (length A)) in E by lia.
      rewrite <- !app_assoc in E. cbn [app] in E. split; [exact E|]. constructor; [apply kb_not; exact HP|exact D].
  - rewrite <- Er in *. assert (Nr : r <> []) by (rewrite Er; discriminate). assert (Lr : 1 <= length r) by (rewrite Er; cbn; lia). clear Er x0 r0.
    destruct (span (fun x => negb (sb x)) r) as (s & g & Eg & FS & HG).
    assert (FS' : Forall (fun x => sb x = false) s) by (eapply Forall_impl; [|exact FS]; intros y; apply negb_true_iff).
    assert (HG' : forall x, hd_error g = Some x -> sb x = true) by (intros y Hy; apply negb_false_iff; exact (HG y Hy)). clear FS HG.
    apply Forall_app in FI. destruct FI as [FIr FIp]. subst r.
    assert (Ins : Forall (inside n) (s ++ g)).
    { pose proof (tiles_inside _ _ _ Tl) as F. apply Forall_app in F. destruct F as [_ F]. apply Forall_app in F. tauto. }
    assert (FSn : Forall (fun x => ~ oov_may_start it x) s) by (eapply Forall_impl; [|exact FS']; intros y; apply sb_not).
    assert (FKn : Forall (katakana_word it) (s ++ g)) by (eapply Forall_impl; [|exact FK]; intros y; apply kb_iff).
    assert (HPn : forall x, hd_error p = Some x -> ~ katakana_word it x) by (intros y Hy; apply kb_not; auto).
    (* the rest of the path after a run that stays as it is *)
    assert (Quiet : (forall j x, nth_error (s ++ g) j = Some x -> tb x = false \/ length g <= 1) ->
      run_result (asks_to_join it (jk_min cfg)) (oov_may_start it) J (s ++ g) (s ++ g) ->
      exists q, loop f (A ++ (s ++ g) ++ p) (length A) = Ok (A ++ q) /\ done ((s ++ g) ++ p) q).
    { intros H RR. replace f with (length (s ++ g) + (f - length (s ++ g))) by (rewrite app_length in Lf; lia).
      rewrite (run_walk A s g p Tl FK HA HP FS' HG' H) by lia.
      assert (Lf' : length p < f - length (s ++ g)) by (rewrite app_length in Lf; lia). remember (f - length (s ++ g)) as f' eqn:Ef. clear Ef.
      destruct p as [|x p].
      - destruct f'; [lia|]. rewrite loop_end by (rewrite !app_length; cbn; lia). rewrite app_nil_r. exists (s ++ g). split; [reflexivity|].
        rewrite <- (app_nil_r (s ++ g)) at 2. rewrite <- (app_nil_r (s ++ g)) at 1. apply rj_run; auto. constructor.
      - destruct f' as [|f']; [lia|]. specialize (HP x eq_refl).
        assert (Ix : inside n x) by (apply tiles_inside in Tl; eapply Forall_forall in Tl; [exact Tl|rewrite !in_app_iff; right; right; now left]).
        cbn [kata_loop]. destruct (Nat.leb_spec (length (A ++ (s ++ g) ++ x :: p)) (length A + length (s ++ g))) as [L|L]; [rewrite !app_length in L; cbn in L; lia|].
        assert (G : get (A ++ (s ++ g) ++ x :: p) (length A + length (s ++ g)) = Ok x).
        { unfold get. rewrite <- (app_length A (s ++ g)). rewrite (app_assoc A), nth_error_app2, Nat.sub_diag by lia. reflexivity. }
        rewrite G. cbn [bind]. rewrite (tb_ok x Ix), (tb_kb x Ix HP). cbn [bind negb].
        destruct (IH p (A ++ (s ++ g) ++ [x]) f') as (q & E & D).
        + rewrite app_length in Lm. cbn [length] in Lm. lia.
        + cbn [length] in Lf'. lia.
        + rewrite <- !app_assoc in *. cbn [app]. exact Tl.
        + inversion FIp; assumption.
        + rewrite !rev_app_distr. cbn. intros y [= <-]. exact HP.
        + exists ((s ++ g) ++ x :: q).
          replace (A ++ (s ++ g) ++ x :: p) with ((A ++ (s ++ g) ++ [x]) ++ p) by (rewrite <- !app_assoc; reflexivity).
          replace (S (length A + length (s ++ g))) with (length (A ++ (s ++ g) ++ [x])) by (rewrite !app_length; cbn; lia).
          rewrite E. split; [rewrite <- !app_assoc; reflexivity|].
          apply rj_run; auto. constructor; [apply kb_not; exact HP|exact D]. }
    destruct (le_lt_dec (length g) 1) as [G1|G2]; [apply Quiet; [auto|apply run_short; auto]|].
    (* the first word that asks *)
    destruct (span (fun x => negb (tb x)) (s ++ g)) as (u & v & Euv & Fu & Hv). destruct v as [|x v].
    { rewrite app_nil_r in Euv. apply Quiet.
      - intros j x E. left. apply nth_error_In in E. rewrite Euv in E. rewrite Forall_forall in Fu. apply negb_true_iff. exact (Fu x E).
      - apply run_quiet. rewrite Forall_forall in *. intros y Hy. apply tb_not; [exact (Ins y Hy)|]. rewrite Euv in Hy. apply negb_true_iff. exact (Fu y Hy). }
    specialize (Hv x eq_refl). apply negb_false_iff in Hv.
    assert (Nx : nth_error (s ++ g) (length u) = Some x) by (rewrite Euv, nth_error_app2, Nat.sub_diag by lia; reflexivity).
    assert (Lu : length u < length (s ++ g)) by (apply nth_error_Some; congruence).
    assert (Bf : forall j y, j < length u -> nth_error (s ++ g) j = Some y -> tb y = false).
    { intros j y Hj E. rewrite Euv, nth_error_app1 in E by exact Hj. apply nth_error_In in E. rewrite Forall_forall in Fu. apply negb_true_iff. exact (Fu y E). }
    assert (Lf0 : S (length u) <= f) by (rewrite app_length in Lf; lia).
    destruct (run_join A s g p Tl FIr FK HA HP FS' HG' (length u) x (f - S (length u)) Nx Hv Bf G2) as (w & Jw & Tl' & E).
    replace (S (length u + (f - S (length u)))) with f in E by lia. rewrite E.
    assert (Ex : Exists (asks_to_join it (jk_min cfg)) (s ++ g)).
    { apply Exists_exists. exists x. pose proof (nth_error_In _ _ Nx) as Ix. split; [exact Ix|]. apply tb_iff; [|exact Hv]. rewrite Forall_forall in Ins. exact (Ins x Ix). }
    assert (RR : run_result (asks_to_join it (jk_min cfg)) (oov_may_start it) J (s ++ g) (s ++ [w])).
    { apply run_joined; auto. intros y Hy. apply sb_iff. auto. }
    assert (Lf' : length p < f - S (length u)) by (rewrite app_length in Lf; lia). remember (f - S (length u)) as f' eqn:Ef. clear Ef.
    destruct f' as [|f']; [lia|]. destruct p as [|y p].
    + rewrite loop_end by (rewrite !app_length; cbn; lia). rewrite !app_nil_r. exists (s ++ [w]). split; [reflexivity|].
      rewrite <- (app_nil_r (s ++ g)). rewrite <- (app_nil_r (s ++ [w])). apply rj_run; auto. constructor.
    + destruct (IH p (A ++ (s ++ [w]) ++ [y]) (S f')) as (q & E' & D).
      * rewrite app_length in Lm. cbn [length] in Lm. lia.
      * cbn [length] in Lf'. lia.
      * rewrite <- !app_assoc in *. cbn [app] in *. exact Tl'.
      * inversion FIp; assumption.
      * rewrite !rev_app_distr. cbn. intros z [= <-]. apply HP. reflexivity.
      * exists ((s ++ [w]) ++ y :: q).
        replace (A ++ (s ++ [w]) ++ y :: p) with ((A ++ (s ++ [w]) ++ [y]) ++ p) by (rewrite <- !app_assoc; reflexivity).
        replace (length (A ++ s) + 2) with (length (A ++ (s ++ [w]) ++ [y])) by (rewrite !app_length; cbn; lia).
        rewrite E'. split; [rewrite <- !app_assoc; reflexivity|].
        apply rj_run; auto. constructor; [apply kb_not; apply HP; reflexivity|exact D].
Qed.
Lemma join_katakana_runs P : tiles 0 (map to_step P) n -> Forall (info_ok lexinfo) P ->
  exists q, join_katakana lexinfo cfg it P lat = Ok q /\ done P q.
Proof.
  intros T F. destruct (loop_runs (length P) P [] (S (length P))) as (q & E & D); [lia|lia|exact T|exact F|discriminate|]. exists q. split; [exact E|exact D].
Qed.
End kata.
