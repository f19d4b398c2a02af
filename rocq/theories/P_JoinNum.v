(** That numbers are joined. *)
From Coq Require Import List ZArith Lia Bool Arith.
From Verif Require Import Base Utf8 M_Builder M_InputText M_Lattice M_NumericParser M_PathRewrite
  S_Text S_Lattice S_Numeric S_Rewrite S_Join P_InputText P_Accessors P_Tokenizer P_Numeric P_NumericComma P_Rewrite
  P_RewriteNum P_RewriteTerm.
Import ListNotations.
Open Scope nat_scope.

Lemma splice_app_l (l r : list wnode) b e w : b <= e <= length l -> splice (l ++ r) b e w = splice l b e w ++ r.
Proof.
  intros H. unfold splice. rewrite firstn_app, skipn_app. replace (b - length l) with 0 by lia.
  replace (e - length l) with 0 by lia. cbn [firstn skipn]. rewrite app_nil_r, <- app_assoc. reflexivity.
Qed.
Lemma splice_app_r (l r : list wnode) b e w : length l <= b <= e -> splice (l ++ r) b e w = l ++ splice r (b - length l) (e - length l) w.
Proof.
  intros H. unfold splice. rewrite firstn_app, skipn_app, firstn_all2, (skipn_all2 l) by lia. cbn [app]. rewrite <- app_assoc. reflexivity.
Qed.
Lemma splice_len (l : list wnode) b e w : b <= e <= length l -> length (splice l b e w) = b + 1 + (length l - e).
Proof. intros H. unfold splice. rewrite app_length, firstn_length. cbn [length]. rewrite skipn_length. lia. Qed.
Lemma splice_mid (a g r : list wnode) w : splice (a ++ g ++ r) (length a) (length a + length g) w = a ++ w :: r.
Proof.
  rewrite splice_app_r by lia. rewrite Nat.sub_diag. replace (length a + length g - length a) with (length g) by lia.
  unfold splice. cbn [firstn app]. rewrite skipn_app, skipn_all, Nat.sub_diag. reflexivity.
Qed.
Lemma slice_mid {A} (a g r : list A) : slice (a ++ g ++ r) (length a) (length a + length g) = g.
Proof.
  unfold slice. rewrite app_assoc, firstn_app, app_length, firstn_all2 by (rewrite app_length; lia).
  replace (length a + length g - (length a + length g)) with 0 by lia. cbn [firstn]. rewrite app_nil_r.
  rewrite skipn_app, skipn_all, Nat.sub_diag. reflexivity.
Qed.

Section joins.
Variable lexinfo : Z -> res word_info.
Context {t orig : text} {m2o : list nat} {cats : list (list cat)} {it : input_text}.
Context (B : built t orig m2o cats it).
Notation n := (length (it_bytes it)).
Variable cfg : numeric_cfg.
Notation R := (number_group lexinfo (jn_pos cfg) (jn_normalize cfg)).
Variable P : list wnode.
Hypothesis TP : tiles 0 (map to_step P) n.
Hypothesis IP : Forall (info_ok lexinfo) P.
Notation step := (jn_step lexinfo cfg it).
Notation loop := (jn_loop lexinfo cfg it).
Notation inv := (jinv lexinfo cfg P).
Notation apart := (no_number_part lexinfo it).

Lemma concat_cases path b e p path' : b < e -> jn_concat lexinfo cfg path b e p = Ok path' ->
  path' = path \/ exists w, path' = splice path b e w.
Proof.
  intros Hbe E. unfold jn_concat in E. apply bind_ok in E as (first & _ & E). apply bind_ok in E as (info & _ & E).
  assert (K : forall nm, concatenate lexinfo path b e nm = Ok path' -> exists w, path' = splice path b e w).
  { intros nm Ec. unfold concatenate in Ec. destruct (Nat.leb_spec e b); [lia|].
    repeat (apply bind_ok in Ec as (? & _ & Ec)). injection Ec as <-. eauto. }
  destruct (negb _); [injection E as <-; now left|]. destruct (jn_normalize cfg).
  - apply bind_ok in E as ((norm & q) & _ & E). destruct (_ || _); [right; eauto|injection E as <-; now left].
  - destruct (1 <? e - b); [right; eauto|injection E as <-; now left].
Qed.

(** What a turn does to the path and to the place of reading *)
Lemma step_shape st st' : inv st -> js_next st < length (js_path st) -> step st = Ok st' ->
  ((js_path st' = js_path st /\ start st <= start st' /\ js_next st' <= S (js_next st)) \/
   (exists e w, start st < e <= js_next st /\ js_path st' = splice (js_path st) (start st) e w /\
      js_next st' = start st + 1 + (S (js_next st) - e) /\ js_begin st' = None)) /\
  (forall w, nth_error (js_path st) (js_next st) = Some w -> apart w ->
     js_begin st' = None /\ js_comma st' = true /\ js_period st' = true).
Proof.
  intros I Hlt E. destruct (jn_step_spec lexinfo B cfg P TP IP st I Hlt) as (st2 & E2 & I'). rewrite E in E2. injection E2 as <-.
  assert (Hs : start st <= js_next st). { unfold start. destruct (js_begin st) as [b|] eqn:Eb; [|lia]. apply (ji_begin _ _ _ _ I) in Eb. lia. }
  unfold jn_step in E. apply bind_ok in E as (w & Ew & E). apply bind_ok in E as (cs & Ec & E). apply bind_ok in E as (info & Ei & E).
  apply get_ok in Ew.
  assert (AP : apart w -> treated_as_digit (js_comma st) (js_period st) cs (wi_norm info) = false /\
     (forall c, (if negb c && negb (list_eqb Z.eqb (wi_norm info) comma_text) then true else c) = true) /\
     (forall c, (if negb c && negb (list_eqb Z.eqb (wi_norm info) point_text) then true else c) = true)).
  { intros (cs' & i' & Ec' & Ei' & N1 & N2 & N3 & N4). unfold node_cats in Ec. rewrite Ec in Ec'. injection Ec' as <-.
    rewrite Ei in Ei'. injection Ei' as <-.
    assert (X1 : list_eqb Z.eqb (wi_norm info) comma_text = false).
    { destruct (list_eqb Z.eqb (wi_norm info) comma_text) eqn:X; [|reflexivity]. apply (list_eqb_spec Z.eqb Z.eqb_eq) in X. exfalso. exact (N3 X). }
    assert (X2 : list_eqb Z.eqb (wi_norm info) point_text = false).
    { destruct (list_eqb Z.eqb (wi_norm info) point_text) eqn:X; [|reflexivity]. apply (list_eqb_spec Z.eqb Z.eqb_eq) in X. exfalso. exact (N4 X). }
    rewrite X1, X2. split; [|split; intros []; reflexivity].
    unfold treated_as_digit. rewrite X1, X2, !andb_false_r, !orb_false_r.
    destruct (cat_mem NUMERIC cs) eqn:M1; [exfalso; apply N1; now apply cat_mem_In|].
    destruct (cat_mem KANJINUMERIC cs) eqn:M2; [exfalso; apply N2; now apply cat_mem_In|]. reflexivity. }
  assert (WW : forall w0, nth_error (js_path st) (js_next st) = Some w0 -> w0 = w) by (intros w0 H0; congruence).
  destruct (treated_as_digit (js_comma st) (js_period st) cs (wi_norm info)) eqn:TD.
  - assert (NA : ~ apart w) by (intros H; apply AP in H as (H & _); discriminate).
    assert (K2 : forall w0, nth_error (js_path st) (js_next st) = Some w0 -> apart w0 ->
       js_begin st' = None /\ js_comma st' = true /\ js_period st' = true).
    { intros w0 H0 H1. apply WW in H0. subst. contradiction. }
    split; [|exact K2]. left. clear K2 AP.
    unfold start in *. destruct (js_begin st) as [b|] eqn:Eb.
    + destruct (p_feed (js_parser st) (wi_norm info)) as [ok p'] eqn:Ef. destruct ok.
      * injection E as <-. cbn. repeat split; lia.
      * destruct (p_error p'); injection E as <-; cbn; repeat split; lia.
    + destruct (p_feed (p_clear (js_parser st)) (wi_norm info)) as [ok p'] eqn:Ef. destruct ok.
      * injection E as <-. cbn. repeat split; lia.
      * destruct (p_error p'); injection E as <-; cbn; repeat split; lia.
  - assert (FL : forall path k q, st' = JnState path k None
        (if negb (js_comma st) && negb (list_eqb Z.eqb (wi_norm info) comma_text) then true else js_comma st)
        (if negb (js_period st) && negb (list_eqb Z.eqb (wi_norm info) point_text) then true else js_period st) q ->
      forall w0, nth_error (js_path st) (js_next st) = Some w0 -> apart w0 ->
       js_begin st' = None /\ js_comma st' = true /\ js_period st' = true).
    { intros path k q -> w0 H0 H1. apply WW in H0. subst w0. apply AP in H1 as (_ & H1 & H2). cbn. auto. }
    destruct (js_begin st) as [b|] eqn:Eb.
    + destruct (ji_begin _ _ _ _ I b Eb) as (Hbn & HF). assert (ES : start st = b) by (unfold start; now rewrite Eb).
      destruct (p_done (js_parser st)) as [ok p'] eqn:Ed. destruct ok.
      * apply bind_ok in E as (path' & Ep & E). injection E as E. symmetry in E. split; [|eapply FL; exact E]. rewrite E, ES. clear E FL.
        apply concat_cases in Ep as [->|(w' & ->)]; [left|right|lia].
        -- unfold start. cbn. repeat split; lia.
        -- exists (js_next st), w'. cbn [js_path js_next js_begin]. repeat split; auto; lia.
      * apply bind_ok in E as (prev & Epv & E). apply bind_ok in E as (pinfo & Epi & E). apply get_ok in Epv.
        destruct (trailing p' (wi_norm pinfo)) eqn:Tr.
        -- destruct (trailing_spec lexinfo (js_path st) b (js_next st) _ _ _ _ Hbn ltac:(lia) HF Ed Epv Epi Tr) as (Hb1 & _).
           apply bind_ok in E as (path' & Ep & E). injection E as E. symmetry in E. split; [|eapply FL; exact E]. rewrite E, ES. clear E FL.
           apply concat_cases in Ep as [->|(w' & ->)]; [left|right|lia].
           ++ unfold start. cbn. repeat split; lia.
           ++ exists (js_next st - 1), w'. cbn [js_path js_next js_begin]. repeat split; auto; lia.
        -- injection E as E. symmetry in E. split; [|eapply FL; exact E]. rewrite E, ES. left. unfold start. cbn. repeat split; lia.
    + injection E as E. symmetry in E. split; [|eapply FL; exact E]. rewrite E. left. unfold start in *. rewrite Eb in *. cbn. repeat split; lia.
Qed.

Lemma loop_step st f q : loop f st = Ok q -> inv st -> js_next st < length (js_path st) ->
  exists f' st', f = S f' /\ step st = Ok st' /\ inv st' /\ loop f' st' = Ok q.
Proof.
  intros E I Hlt. destruct f as [|f]; [discriminate|]. cbn [jn_loop] in E. destruct (Nat.ltb_spec (js_next st) (length (js_path st))); [|lia].
  destruct (jn_step_spec lexinfo B cfg P TP IP st I Hlt) as (st' & E2 & I'). rewrite E2 in E. cbn [bind] in E. eauto 6.
Qed.

(** After a word that is no part of a number the loop starts afresh. *)
Lemma reach f : forall st A x T q, inv st -> js_path st = A ++ x :: T -> js_next st <= length A -> apart x -> loop f st = Ok q ->
  exists f' a p, loop f' (JnState (a ++ x :: T) (S (length a)) None true true p) = Ok q /\
    inv (JnState (a ++ x :: T) (S (length a)) None true true p).
Proof.
  induction f as [|f IH]; intros st A x T q I Ep Hn Ax E; [discriminate|].
  assert (Hlt : js_next st < length (js_path st)) by (rewrite Ep, app_length; cbn [length]; lia).
  destruct (loop_step st (S f) q E I Hlt) as (f' & st' & [= <-] & Es & I' & E'). clear E.
  destruct (step_shape st st' I Hlt Es) as (Sh & Fl).
  assert (Hs : start st <= js_next st). { unfold start. destruct (js_begin st) as [b|] eqn:Eb; [|lia]. apply (ji_begin _ _ _ _ I) in Eb. lia. }
  assert (Fx : js_next st = length A -> js_begin st' = None /\ js_comma st' = true /\ js_period st' = true).
  { intros EA. apply (Fl x); [|exact Ax]. rewrite Ep, EA, nth_error_app2, Nat.sub_diag by lia. reflexivity. }
  assert (Fin : forall a, js_path st' = a ++ x :: T -> js_next st' = S (length a) -> js_next st = length A ->
    exists f' a p, loop f' (JnState (a ++ x :: T) (S (length a)) None true true p) = Ok q /\
      inv (JnState (a ++ x :: T) (S (length a)) None true true p)).
  { intros a Ea En EA. destruct (Fx EA) as (F1 & F2 & F3). exists f, a, (js_parser st').
    destruct st' as [pa nx bg cm pd pr]. cbn in *. subst. auto. }
  destruct Sh as [(S1 & S2 & S3)|(e & w & He & S1 & S2 & S3)].
  - destruct (Nat.eq_dec (js_next st') (S (length A))) as [En|En].
    + apply (Fin A); [congruence|exact En|lia].
    + apply (IH st' A x T q I'); [congruence|lia|exact Ax|exact E'].
  - assert (EA : js_path st' = splice A (start st) e w ++ x :: T) by (rewrite S1, Ep; apply splice_app_l; lia).
    assert (LA : length (splice A (start st) e w) = start st + 1 + (length A - e)) by (apply splice_len; lia).
    destruct (Nat.eq_dec (js_next st) (length A)) as [En|En].
    + apply (Fin _ EA); [lia|exact En].
    + apply (IH st' _ x T q I' EA); [lia|exact Ax|exact E'].
Qed.

(** What was read is left alone. *)
Lemma keeps f : forall st pre T q, inv st -> js_path st = pre ++ T -> length pre <= start st -> loop f st = Ok q -> exists r, q = pre ++ r.
Proof.
  induction f as [|f IH]; intros st pre T q I Ep Hs E; [discriminate|].
  destruct (Nat.ltb_spec (js_next st) (length (js_path st))) as [Hlt|Hge].
  - destruct (loop_step st (S f) q E I Hlt) as (f' & st' & [= <-] & Es & I' & E'). clear E.
    destruct (step_shape st st' I Hlt Es) as (Sh & _).
    destruct Sh as [(S1 & S2 & S3)|(e & w & He & S1 & S2 & S3)].
    + apply (IH st' pre T q I'); [congruence|lia|exact E'].
    + apply (IH st' pre (splice T (start st - length pre) (e - length pre) w) q I'); [|unfold start in *; rewrite S3; lia|exact E'].
      rewrite S1, Ep. apply splice_app_r. lia.
  - cbn [jn_loop] in E. destruct (Nat.ltb_spec (js_next st) (length (js_path st))); [lia|]. unfold jn_finish in E.
    destruct (js_begin st) as [b|] eqn:Eb; [|injection E as <-; eauto].
    destruct (ji_begin _ _ _ _ I b Eb) as (Hbn & HF). pose proof (ji_next _ _ _ _ I) as Hn. assert (ES : start st = b) by (unfold start; now rewrite Eb).
    assert (K : forall e p, b < e -> jn_concat lexinfo cfg (js_path st) b e p = Ok q -> exists r, q = pre ++ r).
    { intros e p Hbe Ec. apply concat_cases in Ec as [->|(w & ->)]; [eauto| |lia].
      rewrite Ep. exists (splice T (b - length pre) (e - length pre) w). apply splice_app_r. lia. }
    assert (EN : js_next st = length (js_path st)) by lia.
    destruct (p_done (js_parser st)) as [ok p'] eqn:Ed. destruct ok.
    + eapply K; [|exact E]. lia.
    + apply bind_ok in E as (prev & Epv & E). apply bind_ok in E as (pinfo & Epi & E). apply get_ok in Epv.
      destruct (trailing p' (wi_norm pinfo)) eqn:Tr; [|injection E as <-; eauto].
      rewrite EN in HF. destruct (trailing_spec lexinfo (js_path st) b (length (js_path st)) _ _ _ _ ltac:(lia) ltac:(lia) HF Ed Epv Epi Tr) as (Hb1 & _).
      eapply K; [|exact E]. lia.
Qed.

(** The words of a number are read one after the other. *)
Lemma feed_prefix s : forall u p q, p_feed p (s ++ u) = (true, q) -> exists p1, p_feed p s = (true, p1) /\ p_feed p1 u = (true, q).
Proof.
  induction s as [|c s IH]; intros u p q E; cbn [app p_feed] in *; [eauto|].
  destruct (p_append p c) as [[] p2]; [apply IH; exact E|discriminate].
Qed.
Lemma reads g : forall f a p done b pr q infos pr2, Forall (number_part lexinfo it) g -> mapM (node_info lexinfo) g = Ok infos ->
  let path := a ++ (done ++ g) ++ p in
  inv (JnState path (length a + length done) b true true pr) ->
  (b = Some (length a) /\ done <> [] \/ b = None /\ done = []) -> g <> [] ->
  p_feed (match b with Some _ => pr | None => p_new end) (concat (map wi_norm infos)) = (true, pr2) ->
  loop f (JnState path (length a + length done) b true true pr) = Ok q ->
  exists f', loop f' (JnState path (length a + length (done ++ g)) (Some (length a)) true true pr2) = Ok q /\
    inv (JnState path (length a + length (done ++ g)) (Some (length a)) true true pr2).
Proof.
  induction g as [|w g IH]; intros f a p done b pr q infos pr2 Dg EI path I Hb Hg F E; [congruence|].
  assert (Hlt : length a + length done < length path) by (unfold path; rewrite !app_length; cbn [length]; lia).
  destruct (loop_step _ f q E I Hlt) as (f' & st' & -> & Es & I' & E'). clear E.
  cbn [mapM] in EI. apply bind_ok in EI as (i0 & Ei & EI). apply bind_ok in EI as (is & EI & [= <-]).
  cbn [map concat] in F. apply feed_prefix in F as (p1 & F1 & F2).
  assert (Ew : nth_error path (length a + length done) = Some w).
  { unfold path. rewrite nth_error_app2 by lia. replace (length a + length done - length a) with (length done) by lia.
    rewrite <- app_assoc, nth_error_app2, Nat.sub_diag by lia. reflexivity. }
  inversion Dg as [|? ? (cs & i' & Ec & Ei' & Dw) Dg']; subst. rewrite Ei in Ei'. injection Ei' as <-.
  assert (TD : treated_as_digit true true cs (wi_norm i0) = true).
  { unfold treated_as_digit. destruct Dw as [H|[H|[H|H]]].
    - apply cat_mem_In in H. now rewrite H.
    - apply cat_mem_In in H. now rewrite H, orb_true_r.
    - rewrite H. cbn. now rewrite !orb_true_r.
    - rewrite H. cbn. now rewrite !orb_true_r. }
  unfold jn_step in Es. cbn [js_path js_next js_begin js_comma js_period js_parser] in Es. unfold get in Es. rewrite Ew in Es. cbn [bind] in Es.
  unfold node_cats in Es. rewrite Ec in Es. cbn [bind] in Es. rewrite Ei in Es. cbn [bind] in Es. rewrite TD in Es.
  assert (ES : st' = JnState path (length a + length (done ++ [w])) (Some (length a)) true true p1).
  { rewrite app_length. cbn [length]. replace (length a + (length done + 1)) with (S (length a + length done)) by lia.
    destruct Hb as [(-> & _)|(-> & ->)].
    - rewrite F1 in Es. now injection Es as <-.
    - rewrite p_clear_new, F1 in Es. cbn [length] in *. rewrite Nat.add_0_r in *. now injection Es as <-. }
  subst st'. destruct g as [|w2 g].
  - cbn [mapM] in EI. injection EI as <-. cbn in F2. injection F2 as <-. eauto.
  - assert (EP : path = a ++ ((done ++ [w]) ++ w2 :: g) ++ p) by (unfold path; now rewrite <- (app_assoc done [w] (w2 :: g))).
    rewrite EP in I', E'. destruct (IH f' a p (done ++ [w]) (Some (length a)) p1 q is pr2 Dg' EI I') as (f2 & K1 & K2); auto.
    + left. split; auto. destruct done; discriminate.
    + discriminate.
    + rewrite <- (app_assoc done [w] (w2 :: g)) in K1, K2. cbn [app] in K1, K2. eauto.
Qed.

(** the words of a number become one *)
Lemma joins a g p infos i0 pr norm : mapM (node_info lexinfo) g = Ok infos -> hd_error infos = Some i0 -> wi_pos i0 = jn_pos cfg ->
  (if jn_normalize cfg then exists pr', p_normalized pr = Ok (norm, pr') /\ norm <> [] else norm = concat (map wi_norm infos)) ->
  exists w, jn_concat lexinfo cfg (a ++ g ++ p) (length a) (length a + length g) pr = Ok (a ++ w :: p) /\
    stands_for lexinfo (jn_pos cfg) norm g w.
Proof.
  intros EI H0 Hp Hn. assert (Gne : g <> []) by (intros ->; cbn in EI; injection EI as <-; discriminate).
  assert (Lg : 0 < length g) by (destruct g; [congruence|cbn; lia]).
  assert (Hbe : length a < length a + length g <= length (a ++ g ++ p)) by (rewrite !app_length; lia).
  pose proof (slice_mid a g p) as SM.
  assert (EI2 : mapM (node_info lexinfo) (slice (a ++ g ++ p) (length a) (length a + length g)) = Ok infos) by now rewrite SM.
  assert (Ef : exists first, get (a ++ g ++ p) (length a) = Ok first /\ hd_error g = Some first).
  { destruct g as [|x g]; [congruence|]. exists x. split; [|reflexivity]. unfold get. rewrite nth_error_app2, Nat.sub_diag by lia. reflexivity. }
  destruct Ef as (first & Ef & Hf). destruct (mapM_hd _ _ _ first EI Hf) as (i0' & E0 & H0'). rewrite H0 in H0'. injection H0' as <-.
  assert (K : forall nm, match nm with [] => concat (map wi_norm infos) | _ => nm end = norm ->
     exists w, concatenate lexinfo (a ++ g ++ p) (length a) (length a + length g) nm = Ok (a ++ w :: p) /\ stands_for lexinfo (jn_pos cfg) norm g w).
  { intros nm Enm. destruct (concatenate_spec lexinfo _ _ _ nm infos Hbe EI2) as (w & f' & l & Ec & Nf & Nl & Wb & We & Wo & Wd & j0 & Ej & Wx).
    rewrite splice_mid in Ec. exists w. split; [exact Ec|]. unfold stands_for.
    apply get_ok in Ef. rewrite Ef in Nf. injection Nf as <-. rewrite E0 in Ej. injection Ej as <-.
    split; [intros x Hx; congruence|]. split.
    - intros x Hx. assert (El : nth_error (a ++ g ++ p) (length a + length g - 1) = Some x).
      { rewrite nth_error_app2 by lia. rewrite nth_error_app1 by lia. destruct (rev g) as [|y r] eqn:Er; [discriminate|]. injection Hx as ->.
        assert (EG : g = rev r ++ [x]) by (rewrite <- (rev_involutive g), Er; reflexivity). rewrite EG, app_length. cbn [length].
        rewrite nth_error_app2 by lia. replace (length a + (length (rev r) + 1) - 1 - length a - length (rev r)) with 0 by lia. reflexivity. }
      rewrite El in Nl. injection Nl as <-. exact We.
    - eexists infos, _. split; [exact EI|]. split; [unfold node_info; rewrite Wd, Wx; reflexivity|]. cbn [wi_pos wi_surface wi_dic wi_reading wi_length wi_norm]. repeat split; auto. }
  assert (Same : length g = 1 -> wi_norm i0 = norm -> stands_for lexinfo (jn_pos cfg) norm g first /\ a ++ g ++ p = a ++ first :: p).
  { intros L1 En. destruct g as [|x [|y g]]; try discriminate. injection Hf as ->. split; [|reflexivity].
    cbn [mapM] in EI. rewrite E0 in EI. cbn [bind] in EI. injection EI as <-.
    unfold stands_for. split; [intros x [= <-]; reflexivity|]. split; [intros x [= <-]; reflexivity|].
    eexists [i0], i0. cbn [mapM]. rewrite E0. cbn [bind map concat list_sum fold_right]. rewrite !app_nil_r, Nat.add_0_r. repeat split; auto. }
  unfold jn_concat. rewrite Ef. cbn [bind]. rewrite E0. cbn [bind]. rewrite Hp, Z.eqb_refl. cbn [negb].
  replace (length a + length g - length a) with (length g) by lia.
  destruct (jn_normalize cfg).
  - destruct Hn as (pr' & En & NE). rewrite En. cbn [bind].
    destruct (Nat.ltb_spec 1 (length g)) as [L1|L1]; cbn [orb].
    + apply K. destruct norm; [congruence|reflexivity].
    + destruct (list_eqb Z.eqb norm (wi_norm i0)) eqn:EQ; cbn [negb].
      * apply (list_eqb_spec Z.eqb Z.eqb_eq) in EQ. destruct Same as (S1 & S2); [lia|auto|]. exists first. rewrite <- S2. auto.
      * apply K. destruct norm; [congruence|reflexivity].
  - destruct (Nat.ltb_spec 1 (length g)) as [L1|L1]; [apply K; auto|].
    destruct Same as (S1 & S2); [lia| |exists first; rewrite <- S2; auto].
    subst norm. destruct g as [|x [|y g]]; cbn [length] in *; try lia. injection Hf as ->.
    cbn [mapM] in EI. rewrite E0 in EI. cbn [bind] in EI. injection EI as <-. cbn. now rewrite app_nil_r.
Qed.

Lemma fresh A g p f q : P = A ++ g ++ p -> (forall x, hd_error (rev A) = Some x -> apart x) -> loop f (jn_init P) = Ok q ->
  exists f' a pr, loop f' (JnState (a ++ g ++ p) (length a) None true true pr) = Ok q /\
    inv (JnState (a ++ g ++ p) (length a) None true true pr).
Proof.
  intros EP HA E. destruct (rev A) as [|x r] eqn:ER.
  - assert (A = []) by (rewrite <- (rev_involutive A), ER; reflexivity). subst A. cbn [app] in EP.
    exists f, [], p_new. cbn [app length]. rewrite <- EP. split; [exact E|]. apply jinv_init.
  - assert (EA : A = rev r ++ [x]) by (rewrite <- (rev_involutive A), ER; reflexivity).
    destruct (reach f (jn_init P) (rev r) x (g ++ p) q (jinv_init lexinfo cfg P)) as (f' & a & pr & E' & I'); auto.
    + cbn. rewrite EP, EA, <- (app_assoc (rev r) [x]). reflexivity.
    + cbn. lia.
    + exists f', (a ++ [x]), pr. rewrite <- (app_assoc a [x]), app_length. cbn [length app]. rewrite Nat.add_1_r. auto.
Qed.

(** a word that is no part of a number, after a number *)
Lemma close_step path i b pr y : nth_error path i = Some y -> apart y -> forall f q,
  loop f (JnState path i (Some b) true true pr) = Ok q -> inv (JnState path i (Some b) true true pr) ->
  exists f' st', loop f' st' = Ok q /\ inv st' /\ js_begin st' = None /\
    let '(ok, p') := p_done pr in
    if ok then jn_concat lexinfo cfg path b i p' = Ok (js_path st') /\ js_next st' = b + 2
    else exists prev pinfo, nth_error path (i - 1) = Some prev /\ node_info lexinfo prev = Ok pinfo /\
      (trailing p' (wi_norm pinfo) = true -> jn_concat lexinfo cfg path b (i - 1) p' = Ok (js_path st') /\ js_next st' = b + 3).
Proof.
  intros Ey Ay f q E I. assert (Hlt : i < length path) by (apply nth_error_Some; congruence).
  destruct (loop_step _ f q E I Hlt) as (f' & st' & -> & Es & I' & E'). exists f', st'. split; [exact E'|]. split; [exact I'|].
  destruct (step_shape _ _ I Hlt Es) as (_ & Fl). split; [apply (Fl y Ey Ay)|].
  destruct Ay as (cs & info & Ec & Ei & N1 & N2 & N3 & N4).
  assert (TD : treated_as_digit true true cs (wi_norm info) = false).
  { unfold treated_as_digit.
    destruct (cat_mem NUMERIC cs) eqn:M1; [exfalso; apply N1; now apply cat_mem_In|].
    destruct (cat_mem KANJINUMERIC cs) eqn:M2; [exfalso; apply N2; now apply cat_mem_In|].
    destruct (list_eqb Z.eqb (wi_norm info) comma_text) eqn:X. { apply (list_eqb_spec Z.eqb Z.eqb_eq) in X. exfalso. exact (N3 X). }
    destruct (list_eqb Z.eqb (wi_norm info) point_text) eqn:X2. { apply (list_eqb_spec Z.eqb Z.eqb_eq) in X2. exfalso. exact (N4 X2). }
    reflexivity. }
  unfold jn_step in Es. cbn [js_path js_next js_begin js_comma js_period js_parser] in Es. unfold get at 1 in Es. rewrite Ey in Es. cbn [bind] in Es.
  unfold node_cats in Es. rewrite Ec in Es. cbn [bind] in Es. rewrite Ei in Es. cbn [bind] in Es. rewrite TD in Es. cbn [negb andb] in Es.
  destruct (p_done pr) as [ok p'] eqn:Ed. destruct ok.
  - apply bind_ok in Es as (path' & Ep & [= <-]). cbn. auto.
  - apply bind_ok in Es as (prev & Epv & Es). apply bind_ok in Es as (pinfo & Epi & Es). apply get_ok in Epv. exists prev, pinfo.
    split; [exact Epv|]. split; [exact Epi|]. intros Tr. rewrite Tr in Es. apply bind_ok in Es as (path' & Ep & [= <-]). cbn. auto.
Qed.

Lemma loop_end path b pr f q : inv (JnState path (length path) (Some b) true true pr) ->
  loop f (JnState path (length path) (Some b) true true pr) = Ok q ->
  jn_finish lexinfo cfg (JnState path (length path) (Some b) true true pr) = Ok q.
Proof.
  intros _ E. destruct f as [|f]; [discriminate|]. cbn [jn_loop] in E. cbn [js_next js_path] in E.
  destruct (Nat.ltb_spec (length path) (length path)); [lia|]. exact E.
Qed.

Definition written (pr : parser) (infos : list word_info) (norm : text) : Prop :=
  if jn_normalize cfg then exists pr', p_normalized pr = Ok (norm, pr') /\ norm <> [] else norm = concat (map wi_norm infos).

Theorem number_joined A g p infos i0 pr norm q :
  P = A ++ g ++ p -> (forall x, hd_error (rev A) = Some x -> apart x) -> (forall x, hd_error p = Some x -> apart x) ->
  Forall (number_part lexinfo it) g -> mapM (node_info lexinfo) g = Ok infos -> hd_error infos = Some i0 -> wi_pos i0 = jn_pos cfg ->
  parsed (concat (map wi_norm infos)) true pr -> written pr infos norm ->
  join_numeric lexinfo cfg it P = Ok q ->
  exists a w r, q = a ++ w :: r /\ stands_for lexinfo (jn_pos cfg) norm g w.
Proof.
  intros EP HA Hp Dg EI H0 Pos (p1 & F & D) Wr E. unfold join_numeric in E.
  destruct (fresh A g p _ q EP HA E) as (f1 & a & pr0 & E1 & I1). clear E.
  assert (Gne : g <> []) by (intros ->; cbn in EI; injection EI as <-; discriminate).
  destruct (reads g f1 a p [] None pr0 q infos p1 Dg EI) as (f2 & E2 & I2); auto.
  { cbn [app length]. rewrite Nat.add_0_r. exact I1. }
  { cbn [app length]. rewrite Nat.add_0_r. exact E1. }
  cbn [app] in E2, I2. destruct (joins a g p infos i0 pr norm EI H0 Pos Wr) as (w & EJ & SF). exists a, w.
  destruct p as [|y p].
  - assert (EL : length a + length g = length (a ++ g ++ [])) by (rewrite !app_length; cbn; lia).
    rewrite EL in E2, I2. apply (loop_end _ _ _ _ _ I2) in E2. unfold jn_finish in E2. cbn [js_path js_begin js_parser] in E2.
    rewrite D, <- EL, EJ in E2. injection E2 as <-. exists []. auto.
  - assert (Ny : nth_error (a ++ g ++ y :: p) (length a + length g) = Some y).
    { rewrite nth_error_app2 by lia. rewrite nth_error_app2 by lia. replace (_ - _ - _) with 0 by lia. reflexivity. }
    destruct (close_step _ _ _ _ y Ny (Hp y eq_refl) _ _ E2 I2) as (f3 & st & E3 & I3 & B3 & K).
    rewrite D in K. destruct K as (K1 & K2). rewrite EJ in K1. injection K1 as K1.
    destruct (keeps f3 st (a ++ [w]) (y :: p) q I3) as (r & ->); auto.
    { rewrite <- K1, <- (app_assoc a [w]). reflexivity. }
    { unfold start. rewrite B3, K2, app_length. cbn. lia. }
    exists r. rewrite <- (app_assoc a [w]). auto.
Qed.

Theorem number_separated A g x p infos i0 xi pr norm q :
  P = A ++ g ++ x :: p -> (forall y, hd_error (rev A) = Some y -> apart y) -> (forall y, hd_error p = Some y -> apart y) ->
  Forall (number_part lexinfo it) g -> mapM (node_info lexinfo) g = Ok infos -> hd_error infos = Some i0 -> wi_pos i0 = jn_pos cfg ->
  number_part lexinfo it x -> node_info lexinfo x = Ok xi ->
  parsed (concat (map wi_norm infos) ++ wi_norm xi) false pr ->
  trailing pr (wi_norm xi) = true -> written pr infos norm ->
  join_numeric lexinfo cfg it P = Ok q ->
  exists a w r, q = a ++ w :: x :: r /\ stands_for lexinfo (jn_pos cfg) norm g w.
Proof.
  intros EP HA Hp Dg EI H0 Pos Dx Ex (p1 & F & D) Tr Wr E. unfold join_numeric in E.
  assert (EG : forall l : list wnode, l ++ g ++ x :: p = l ++ (g ++ [x]) ++ p) by (intros l; now rewrite <- (app_assoc g [x])).
  rewrite EG in EP.
  destruct (fresh A (g ++ [x]) p _ q EP HA E) as (f1 & a & pr0 & E1 & I1). clear E.
  assert (Gne : g <> []) by (intros ->; cbn in EI; injection EI as <-; discriminate).
  assert (Lg : 0 < length g) by (destruct g; [congruence|cbn; lia]).
  assert (EI2 : mapM (node_info lexinfo) (g ++ [x]) = Ok (infos ++ [xi])).
  { rewrite mapM_app, EI. cbn [bind mapM]. rewrite Ex. reflexivity. }
  destruct (reads (g ++ [x]) f1 a p [] None pr0 q (infos ++ [xi]) p1) as (f2 & E2 & I2); auto.
  { apply Forall_app. auto. }
  { cbn [app length]. rewrite Nat.add_0_r. exact I1. }
  { destruct g; discriminate. }
  { rewrite map_app, concat_app. cbn [map concat]. rewrite app_nil_r. exact F. }
  { cbn [app length]. rewrite Nat.add_0_r. exact E1. }
  cbn [app] in E2, I2. destruct (joins a g (x :: p) infos i0 pr norm EI H0 Pos Wr) as (w & EJ & SF). exists a, w.
  assert (Lx : length (g ++ [x]) = S (length g)) by (rewrite app_length; cbn; lia).
  assert (Nx : nth_error (a ++ (g ++ [x]) ++ p) (length a + length g) = Some x).
  { rewrite <- EG. rewrite nth_error_app2 by lia. rewrite nth_error_app2 by lia. replace (_ - _ - _) with 0 by lia. reflexivity. }
  destruct p as [|y p].
  - assert (EL : length a + length (g ++ [x]) = length (a ++ (g ++ [x]) ++ [])) by (rewrite !app_length; cbn; lia).
    rewrite EL in E2, I2. apply (loop_end _ _ _ _ _ I2) in E2. unfold jn_finish in E2. cbn [js_path js_begin js_parser] in E2.
    rewrite D, <- EL in E2. replace (length a + length (g ++ [x]) - 1) with (length a + length g) in E2 by lia.
    unfold get in E2. rewrite Nx in E2. cbn [bind] in E2. rewrite Ex in E2. cbn [bind] in E2. rewrite Tr in E2.
    rewrite <- EG, EJ in E2. injection E2 as <-. exists []. auto.
  - assert (Ny : nth_error (a ++ (g ++ [x]) ++ y :: p) (length a + length (g ++ [x])) = Some y).
    { rewrite nth_error_app2 by lia. rewrite nth_error_app2 by lia. replace (_ - _ - _) with 0 by lia. reflexivity. }
    destruct (close_step _ _ _ _ y Ny (Hp y eq_refl) _ _ E2 I2) as (f3 & st & E3 & I3 & B3 & K).
    rewrite D in K. destruct K as (prev & pinfo & K0 & K1 & K2).
    replace (length a + length (g ++ [x]) - 1) with (length a + length g) in K0, K2 by lia.
    rewrite Nx in K0. injection K0 as <-. rewrite Ex in K1. injection K1 as <-. destruct (K2 Tr) as (K3 & K4).
    rewrite <- EG, EJ in K3. injection K3 as K3.
    destruct (keeps f3 st (a ++ [w; x]) (y :: p) q I3) as (r & ->); auto.
    { rewrite <- K3, <- (app_assoc a [w; x]). reflexivity. }
    { unfold start. rewrite B3, K4, app_length. cbn. lia. }
    exists r. rewrite <- (app_assoc a [w; x]). auto.
Qed.
End joins.

(** A separator read after a complete numeral makes it incomplete. *)
Lemma separator_error s c p1 p0 p2 : c = comma_char \/ c = point_char ->
  p_feed p_new s = (true, p1) -> p_done p1 = (true, p0) -> p_feed p_new (s ++ [c]) = (true, p2) ->
  exists p, p_done p2 = (false, p) /\ trailing p [c] = true.
Proof.
  intros Hc F1 D1 F2. rewrite (feed_app_ok _ _ _ _ F1) in F2. cbn [p_feed] in F2.
  destruct (p_append p1 c) as [ok1 p3] eqn:A. destruct ok1; [|discriminate]. injection F2 as ->.
  assert (H1 : p_hanging p1 = false).
  { unfold p_done in D1. destruct (sn_add (p_sub p1) (p_tmp p1)) as [[ok1 sub] tmp].
    destruct (if ok1 then sn_add (p_total p1) sub else (false, p_total p1, sub)) as [[ret total] sub'].
    cbn [p_hanging] in D1. destruct (p_hanging p1); [discriminate|reflexivity]. }
  unfold p_done. destruct (sn_add (p_sub p2) (p_tmp p2)) as [[ok1 sub] tmp].
  destruct (if ok1 then sn_add (p_total p2) sub else (false, p_total p2, sub)) as [[ret total] sub'].
  cbn [p_hanging p_comma p_digits]. destruct Hc as [-> | ->]; unfold p_append in A.
  - change (comma_char =? 46)%Z with false in A. change (comma_char =? 44)%Z with true in A. cbn iota in A.
    destruct (negb (check_comma p1)); [discriminate|]. injection A as <-. cbn [p_hanging p_comma p_digits]. rewrite H1. cbn.
    eexists. split; reflexivity.
  - change (point_char =? 46)%Z with true in A. cbn iota in A. cbn [p_first p_comma p_tmp p_digits p_hanging p_error p_total p_sub] in A.
    destruct (p_first p1); [discriminate|]. destruct (p_comma p1 && _); [discriminate|].
    destruct (sn_set_point (p_tmp p1)) as [ok2 tmp2]. destruct (negb ok2); [discriminate|]. injection A as <-. cbn [p_hanging].
    eexists. split; reflexivity.
Qed.
