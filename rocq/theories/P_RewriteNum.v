(** The plugin that joins numbers. *)
From Coq Require Import List ZArith Lia Bool Arith.
From Verif Require Import Base Utf8 M_Builder M_InputText M_Lattice M_NumericParser M_PathRewrite
  S_Text S_Lattice S_Numeric S_Rewrite P_InputText P_Accessors P_Tokenizer P_Numeric P_NumericComma P_Rewrite.
Import ListNotations.
Open Scope nat_scope.

Lemma mapM_app {A B} (f : A -> res B) l1 l2 : mapM f (l1 ++ l2) = (a <- mapM f l1 ;; b <- mapM f l2 ;; Ok (a ++ b)).
Proof.
  induction l1 as [|x l1 IH]; cbn [app mapM].
  - cbn [bind]. destruct (mapM f l2); reflexivity.
  - destruct (f x); cbn [bind]; [|reflexivity]. rewrite IH. destruct (mapM f l1); cbn [bind]; [|reflexivity].
    destruct (mapM f l2); reflexivity.
Qed.
Lemma mapM_hd {A B} (f : A -> res B) l ys x : mapM f l = Ok ys -> hd_error l = Some x -> exists y, f x = Ok y /\ hd_error ys = Some y.
Proof.
  destruct l as [|z l]; [discriminate|]. cbn [mapM hd_error]. intros E [= ->].
  apply bind_ok in E as (y & E1 & E). apply bind_ok in E as (r & E2 & [= <-]). eauto.
Qed.
Lemma slice_snoc {A} (l : list A) b i x : b <= i -> nth_error l i = Some x -> slice l b (S i) = slice l b i ++ [x].
Proof.
  intros H E. assert (i < length l) by (apply nth_error_Some; congruence). unfold slice.
  assert (K : firstn (S i) l = firstn i l ++ [x]).
  { clear H. revert l E H0. induction i as [|i IH]; intros [|y l] E Hl; cbn in *; try lia; try congruence.
    f_equal. apply IH; auto. lia. }
  rewrite K, skipn_app. rewrite firstn_length, Nat.min_l by lia. replace (b - i) with 0 by lia. reflexivity.
Qed.
Lemma feed_app_ok s t p p1 : p_feed p s = (true, p1) -> p_feed p (s ++ t) = p_feed p1 t.
Proof.
  revert p. induction s as [|c s IH]; intros p; cbn [p_feed app].
  - now intros [= ->].
  - destruct (p_append p c) as [ok p2]. destruct ok; [|discriminate]. apply IH.
Qed.

Lemma done_wf p s ok p' : inv p s -> p_done p = (ok, p') -> wf (p_total p').
Proof.
  intros [Wt Ws Wm _] D. unfold p_done in D.
  destruct (sn_add (p_sub p) (p_tmp p)) as [[ok1 sub] tmp] eqn:E1.
  destruct (add_wf _ _ _ _ _ Ws Wm E1) as (W1 & _).
  assert (K : exists ret total sub', (if ok1 then sn_add (p_total p) sub else (false, p_total p, sub)) = (ret, total, sub') /\ wf total).
  { destruct ok1; [|eexists _, _, _; split; [reflexivity|exact Wt]].
    destruct (sn_add (p_total p) sub) as [[r tt] ss] eqn:E2. destruct (add_wf _ _ _ _ _ Wt W1 E2) as (W2 & _). eauto 6. }
  destruct K as (ret & total & sub' & EK & WK). rewrite EK in D.
  destruct (p_hanging _); [injection D as <- <-; exact WK|]. destruct (_ && _); injection D as <- <-; exact WK.
Qed.
Lemma feed_done_wf s p ok p' : p_feed p_new s = (true, p) -> p_done p = (ok, p') -> wf (p_total p').
Proof. intros F D. apply (done_wf p _ ok p' (feed_inv s p_new [] p inv_new F) D). Qed.

Section num.
Variable lexinfo : Z -> res word_info.
Context {t orig : text} {m2o : list nat} {cats : list (list cat)} {it : input_text}.
Context (B : built t orig m2o cats it).
Notation n := (length (it_bytes it)).
Variable cfg : numeric_cfg.
Notation R := (number_group lexinfo (jn_pos cfg) (jn_normalize cfg)).

(** the numeral parsed before the join *)
Definition justified (path : list wnode) (b e : nat) (p : parser) : Prop :=
  exists infos, mapM (node_info lexinfo) (slice path b e) = Ok infos /\
    (parsed (concat (map wi_norm infos)) true p \/
     exists x xi, nth_error path e = Some x /\ node_info lexinfo x = Ok xi /\
       (wi_norm xi = [comma_char] \/ wi_norm xi = [point_char]) /\
       parsed (concat (map wi_norm infos) ++ wi_norm xi) false p).

Lemma concatenate_spec path b e norm infos : b < e <= length path ->
  mapM (node_info lexinfo) (slice path b e) = Ok infos ->
  exists w first last, concatenate lexinfo path b e norm = Ok (splice path b e w) /\
    nth_error path b = Some first /\ nth_error path (e - 1) = Some last /\
    w_begin w = w_begin first /\ w_end w = w_end last /\
    w_oov w = false /\ w_defined w = true /\
    exists i0, node_info lexinfo first = Ok i0 /\
    w_extra w = Some (WordInfo (concat (map wi_surface infos)) (list_sum (map wi_length infos)) (wi_pos i0)
      (match norm with [] => concat (map wi_norm infos) | _ => norm end) (-1) (concat (map wi_dic infos))
      (concat (map wi_reading infos)) [] [] [] []).
Proof.
  intros Hbe EI. unfold concatenate. destruct (Nat.leb_spec e b); [lia|].
  destruct (get_lt path b ltac:(lia)) as (first & Ef). destruct (get_lt path (e - 1) ltac:(lia)) as (last & El).
  rewrite Ef, El. cbn [bind]. apply get_ok in Ef, El.
  destruct (mapM_hd _ _ _ first EI) as (i0 & E0 & H0). { apply hd_slice; [lia|auto]. }
  rewrite E0. cbn [bind]. rewrite EI. cbn [bind].
  eexists _, first, last. split; [reflexivity|]. repeat split; auto. exists i0. repeat split; auto.
Qed.

Lemma jn_concat_spec path b e p : b < e <= length path -> justified path b e p -> wf (p_total p) ->
  exists path', jn_concat lexinfo cfg path b e p = Ok path' /\
    (path' = path \/ exists w first last, path' = splice path b e w /\
      nth_error path b = Some first /\ nth_error path (e - 1) = Some last /\
      w_begin w = w_begin first /\ w_end w = w_end last /\ R (slice path b e) (skipn e path) w).
Proof.
  intros Hbe (infos & EI & J) W. unfold jn_concat.
  destruct (get_lt path b ltac:(lia)) as (first & Ef). rewrite Ef. cbn [bind]. apply get_ok in Ef.
  destruct (mapM_hd _ _ _ first EI) as (i0 & E0 & H0). { apply hd_slice; [lia|auto]. }
  rewrite E0. cbn [bind]. destruct (Z.eqb_spec (wi_pos i0) (jn_pos cfg)) as [EP|]; cbn [negb]; [|eauto].
  assert (HP : forall i, hd_error infos = Some i -> wi_pos i = jn_pos cfg) by (intros i Hi; congruence).
  destruct (jn_normalize cfg) eqn:NZ.
  - destruct (str_spec (p_total p) W) as (out & n' & v & Es & Can & _). unfold p_normalized at 1. rewrite Es. cbn [bind].
    assert (NE : out <> []). { destruct Can as [(N & _)|(i & f & c & -> & (N & _) & _)]; auto. destruct i; [congruence|discriminate]. }
    destruct (_ || _); [|eauto].
    destruct (concatenate_spec path b e out infos Hbe EI) as (w & first' & last & Ec & Nf & Nl & Wb & We & Wo & Wd & i0' & E0' & Wx).
    rewrite Nf in Ef. injection Ef as ->. rewrite E0 in E0'. injection E0' as <-.
    rewrite Ec. eexists. split; [reflexivity|]. right. exists w, first, last. repeat split; auto.
    unfold number_group. eexists infos, _. split; [exact EI|]. split; [exact HP|]. split; [exact Wo|]. split; [exact Wd|].
    split; [exact Wx|]. cbn [wi_pos wi_surface wi_dic wi_reading wi_length wi_norm]. do 5 (split; [auto|]).
    exists p. unfold p_normalized. rewrite Es. cbn [bind]. destruct out; [congruence|]. eexists. split; [|reflexivity].
    destruct J as [J|(x & xi & Nx & J)]; [now left|right]. exists x, xi. split; [|exact J].
    destruct (skipn e path) as [|y r] eqn:Es'.
    + rewrite <- (Nat.add_0_r e), <- nth_error_skipn', Es' in Nx. discriminate.
    + rewrite <- (Nat.add_0_r e), <- nth_error_skipn', Es' in Nx. exact Nx.
  - destruct (Nat.ltb_spec 1 (e - b)) as [L|L]; [|eauto].
    destruct (concatenate_spec path b e [] infos Hbe EI) as (w & first' & last & Ec & Nf & Nl & Wb & We & Wo & Wd & i0' & E0' & Wx).
    rewrite Nf in Ef. injection Ef as ->. rewrite E0 in E0'. injection E0' as <-.
    rewrite Ec. eexists. split; [reflexivity|]. right. exists w, first, last. repeat split; auto.
    unfold number_group. eexists infos, _. split; [exact EI|]. split; [exact HP|]. split; [exact Wo|]. split; [exact Wd|].
    split; [exact Wx|]. cbn [wi_pos wi_surface wi_dic wi_reading wi_length wi_norm]. do 5 (split; [auto|]).
    split; [|reflexivity]. destruct (slice_split path b e ltac:(lia)) as (_ & SL & _). lia.
Qed.

(** ** The invariant of the loop *)
Variable P : list wnode.

Definition start (st : jn_state) : nat := match js_begin st with Some b => b | None => js_next st end.

Record jinv (st : jn_state) : Prop := {
  ji_path : exists P0 A T, P = P0 ++ T /\ js_path st = A ++ T /\ joined R T P0 A /\ length A <= start st;
  ji_next : js_next st <= length (js_path st);
  ji_begin : forall b, js_begin st = Some b -> b < js_next st /\
    exists infos, mapM (node_info lexinfo) (slice (js_path st) b (js_next st)) = Ok infos /\
      p_feed p_new (concat (map wi_norm infos)) = (true, js_parser st);
}.

Lemma jinv_init : jinv (jn_init P).
Proof.
  constructor; cbn; [|lia|discriminate]. exists [], [], P. repeat split; auto; try (cbn; lia); apply joined_nil.
Qed.

Lemma jinv_joined st : jinv st -> joined R [] P (js_path st).
Proof.
  intros [(P0 & A & T & -> & -> & J & _) _ _]. apply joined_app; [now rewrite app_nil_r|apply joined_refl].
Qed.
Lemma jinv_node st i w : jinv st -> start st <= i -> nth_error (js_path st) i = Some w -> In w P.
Proof.
  intros [(P0 & A & T & -> & -> & J & L) _ _] H E. rewrite nth_error_app2 in E by lia.
  apply in_or_app. right. eapply nth_error_In; eauto.
Qed.

(** a join (or not) of the nodes [b, e), followed by a new start at [k] *)
Lemma jinv_concat path P0 A T b e p k cm pd p2 :
  P = P0 ++ T -> path = A ++ T -> joined R T P0 A -> length A <= b -> b < e <= length path ->
  justified path b e p -> wf (p_total p) ->
  b < k -> k <= length path -> k <= b + 1 + (length path - e) ->
  exists path', jn_concat lexinfo cfg path b e p = Ok path' /\ jinv (JnState path' k None cm pd p2) /\ length path' <= length path
    /\ joined R [] P path'.
Proof.
  intros EP Epath J LA Hbe JU W Hk Hk1 Hk2.
  destruct (jn_concat_spec path b e p Hbe JU W) as (path' & E & H). exists path'. split; [exact E|].
  assert (G : jinv (JnState path' k None cm pd p2) /\ length path' <= length path).
  { destruct H as [->|(w & first & last & -> & Nf & Nl & Wb & We & HR)].
    - split; [|lia]. constructor; cbn [js_path js_next js_begin]; [|lia|discriminate].
      exists P0, A, T. unfold start. cbn. repeat split; auto. lia.
    - assert (ET : T = slice path (length A) b ++ slice path b e ++ skipn e path).
      { assert (K : T = skipn (length A) path) by (subst path; rewrite skipn_app, skipn_all, Nat.sub_diag; reflexivity).
        rewrite K at 1. destruct (slice_split path b e ltac:(lia)) as (S1 & _).
        rewrite S1 at 1. rewrite skipn_app. rewrite firstn_length, Nat.min_l by lia.
        replace (length A - b) with 0 by lia. cbn [skipn]. reflexivity. }
      assert (Efirst : firstn b path = A ++ slice path (length A) b).
      { unfold slice. rewrite <- (firstn_skipn (length A) (firstn b path)) at 1. f_equal.
        rewrite firstn_firstn, Nat.min_l by lia. subst path. now rewrite firstn_app, firstn_all, Nat.sub_diag, app_nil_r. }
      assert (LS : length (splice path b e w) = b + 1 + (length path - e)).
      { unfold splice. rewrite app_length, firstn_length. cbn [length]. rewrite skipn_length. lia. }
      split; [|lia]. constructor; cbn [js_path js_next js_begin]; [|lia|discriminate].
      exists (P0 ++ slice path (length A) b ++ slice path b e), (firstn b path ++ [w]), (skipn e path).
      split; [rewrite EP, ET at 1; now rewrite <- !app_assoc|]. split; [unfold splice; now rewrite <- app_assoc|].
      split; [|unfold start; cbn; rewrite app_length, firstn_length; cbn; lia].
      rewrite Efirst. rewrite <- app_assoc. apply joined_app; [rewrite <- app_assoc, <- ET; exact J|].
      apply joined_app; [apply joined_refl|]. rewrite <- (app_nil_r (slice path b e)).
      eapply joined_group; [apply hd_slice; eauto; lia|apply last_slice; eauto; lia|auto|auto|exact HR|constructor]. }
  destruct G as (G1 & G2). split; [exact G1|]. split; [exact G2|]. exact (jinv_joined _ G1).
Qed.

(** the number read so far ends with a comma or point that is not part of it *)
Lemma trailing_spec path b i p p' prev pinfo : b < i -> i <= length path ->
  (exists infos, mapM (node_info lexinfo) (slice path b i) = Ok infos /\ p_feed p_new (concat (map wi_norm infos)) = (true, p)) ->
  p_done p = (false, p') -> nth_error path (i - 1) = Some prev -> node_info lexinfo prev = Ok pinfo ->
  trailing p' (wi_norm pinfo) = true -> b < i - 1 /\ justified path b (i - 1) p'.
Proof.
  intros Hb Hi (infos & EI & F) D Np Ep Tr.
  assert (NS : wi_norm pinfo = [comma_char] \/ wi_norm pinfo = [point_char]).
  { unfold trailing in Tr. destruct (p_error p'); try discriminate; apply (list_eqb_spec Z.eqb Z.eqb_eq) in Tr; auto. }
  assert (SP : slice path b i = slice path b (i - 1) ++ [prev]).
  { replace i with (S (i - 1)) at 1 by lia. apply slice_snoc; auto. lia. }
  rewrite SP, mapM_app in EI. apply bind_ok in EI as (is1 & E1 & EI). apply bind_ok in EI as (is2 & E2 & [= <-]).
  cbn [mapM] in E2. rewrite Ep in E2. cbn [bind] in E2. injection E2 as <-.
  rewrite map_app, concat_app in F. cbn [map concat] in F. rewrite app_nil_r in F.
  split.
  - destruct (Nat.eq_dec b (i - 1)) as [->|]; [|lia]. exfalso. rewrite slice_nil in E1 by lia. cbn in E1. injection E1 as <-.
    cbn [map concat app] in F. destruct NS as [NS|NS]; rewrite NS in F; vm_compute in F; discriminate.
  - exists is1. split; [exact E1|]. right. exists prev, pinfo. repeat split; auto. exists p. auto.
Qed.

Hypothesis TP : tiles 0 (map to_step P) n.
Hypothesis IP : Forall (info_ok lexinfo) P.

Lemma jn_step_spec st : jinv st -> js_next st < length (js_path st) ->
  exists st', jn_step lexinfo cfg it st = Ok st' /\ jinv st'.
Proof.
  intros I Hlt. pose proof (joined_tiles _ _ _ _ (jinv_joined _ I) _ _ TP) as Tp. pose proof (tiles_inside _ _ _ Tp) as F.
  unfold jn_step. destruct (get_lt _ _ Hlt) as (w & Ew). rewrite Ew. cbn [bind]. apply get_ok in Ew.
  assert (Iw : inside n w) by (eapply Forall_forall in F; [exact F|eapply nth_error_In; eauto]).
  destruct (node_cats_total B w Iw) as (cs & Ec). rewrite Ec. cbn [bind].
  assert (Hs : start st <= js_next st). { unfold start. destruct (js_begin st) as [b|] eqn:Eb; [|lia]. apply (ji_begin _ I) in Eb. lia. }
  assert (OK : info_ok lexinfo w). { eapply Forall_forall in IP; [exact IP|]. eapply jinv_node; eauto. }
  destruct OK as (info & Ei). rewrite Ei. cbn [bind].
  destruct I as [(P0 & A & T & EP & Epath & J & LA) Hn Hb].
  destruct (treated_as_digit _ _ _ _).
  - (* a part of a number *)
    set (bp := match js_begin st with Some b => (b, js_parser st) | None => (js_next st, p_clear (js_parser st)) end).
    assert (HB : fst bp = start st) by (unfold bp, start; destruct (js_begin st); reflexivity).
    assert (HF : exists infos, mapM (node_info lexinfo) (slice (js_path st) (fst bp) (js_next st)) = Ok infos
              /\ p_feed p_new (concat (map wi_norm infos)) = (true, snd bp)).
    { unfold bp. destruct (js_begin st) as [b|] eqn:Eb; cbn [fst snd].
      - apply Hb. reflexivity.
      - exists []. rewrite slice_nil by lia. cbn. rewrite p_clear_new. auto. }
    destruct bp as [b p]. cbn [fst snd] in *. subst b.
    destruct (p_feed p (wi_norm info)) as [ok p'] eqn:Ef. destruct ok.
    + eexists. split; [reflexivity|]. constructor; cbn [js_path js_next js_begin js_parser]; [|lia|].
      * exists P0, A, T. repeat split; auto.
      * intros b [= <-]. split; [lia|]. destruct HF as (infos & EI & HF). exists (infos ++ [info]). split.
        -- rewrite (slice_snoc _ _ _ w) by auto. rewrite mapM_app, EI. cbn [bind mapM]. rewrite Ei. reflexivity.
        -- rewrite map_app, concat_app. cbn [map concat]. rewrite app_nil_r. now rewrite (feed_app_ok _ _ _ _ HF).
    + assert (K : forall k cm pd q, start st <= k <= length (js_path st) -> jinv (JnState (js_path st) k None cm pd q)).
      { intros k cm pd q Hk. constructor; cbn [js_path js_next js_begin]; [|lia|discriminate].
        exists P0, A, T. repeat split; auto. unfold start in *. cbn. lia. }
      destruct (p_error p'); (eexists; split; [reflexivity|]; apply K; lia).
  - destruct (js_begin st) as [b|] eqn:Eb.
    + destruct (Hb b eq_refl) as (Hbn & HF). unfold start in LA, Hs. rewrite Eb in LA, Hs.
      destruct (p_done (js_parser st)) as [ok p'] eqn:Ed.
      assert (W : wf (p_total p')). { destruct HF as (infos & _ & HF). eapply feed_done_wf; eauto. }
      destruct ok.
      * destruct (jinv_concat (js_path st) P0 A T b (js_next st) p' (b + 2)
          (if negb (js_comma st) && negb (list_eqb Z.eqb (wi_norm info) comma_text) then true else js_comma st)
          (if negb (js_period st) && negb (list_eqb Z.eqb (wi_norm info) point_text) then true else js_period st) p')
          as (path' & E & I' & _); auto; try lia.
        { destruct HF as (infos & EI & HF). exists infos. split; auto. left. exists (js_parser st). auto. }
        rewrite E. cbn [bind]. eexists. split; [reflexivity|exact I'].
      * destruct (get_lt (js_path st) (js_next st - 1) ltac:(lia)) as (prev & Epv). rewrite Epv. cbn [bind]. apply get_ok in Epv.
        assert (OK : info_ok lexinfo prev).
        { eapply Forall_forall in IP; [exact IP|]. rewrite EP. apply in_or_app. right. rewrite Epath in Epv.
          rewrite nth_error_app2 in Epv by lia. eapply nth_error_In; eauto. }
        destruct OK as (pinfo & Epi). rewrite Epi. cbn [bind].
        destruct (trailing p' (wi_norm pinfo)) eqn:Tr.
        -- destruct (trailing_spec (js_path st) b (js_next st) _ _ _ _ ltac:(lia) ltac:(lia) HF Ed Epv Epi Tr) as (Hb1 & JU).
           destruct (jinv_concat (js_path st) P0 A T b (js_next st - 1) p' (b + 3)
             (if negb (js_comma st) && negb (list_eqb Z.eqb (wi_norm info) comma_text) then true else js_comma st)
             (if negb (js_period st) && negb (list_eqb Z.eqb (wi_norm info) point_text) then true else js_period st) p')
             as (path' & E & I' & _); auto; try lia.
           rewrite E. cbn [bind]. eexists. split; [reflexivity|exact I'].
        -- eexists. split; [reflexivity|]. constructor; cbn [js_path js_next js_begin]; [|lia|discriminate].
           exists P0, A, T. repeat split; auto. unfold start. cbn. lia.
    + eexists. split; [reflexivity|]. constructor; cbn [js_path js_next js_begin]; [|lia|discriminate].
      exists P0, A, T. repeat split; auto. unfold start in *. rewrite Eb in LA. cbn. lia.
Qed.

Lemma jn_finish_spec st : jinv st -> length (js_path st) <= js_next st ->
  exists q, jn_finish lexinfo cfg st = Ok q /\ joined R [] P q.
Proof.
  intros I Hlt. pose proof (jinv_joined _ I) as JJ. unfold jn_finish.
  destruct I as [(P0 & A & T & EP & Epath & J & LA) Hn Hb].
  destruct (js_begin st) as [b|] eqn:Eb; [|eauto]. destruct (Hb b eq_refl) as (Hbn & HF).
  assert (EN : js_next st = length (js_path st)) by lia. rewrite EN in *. unfold start in LA. rewrite Eb in LA.
  destruct (p_done (js_parser st)) as [ok p'] eqn:Ed.
  assert (W : wf (p_total p')). { destruct HF as (infos & _ & HF). eapply feed_done_wf; eauto. }
  destruct ok.
  - destruct (jinv_concat (js_path st) P0 A T b (length (js_path st)) p' (b + 1) true true p')
      as (path' & E & _ & _ & I'); auto; try lia; [|eauto].
    destruct HF as (infos & EI & HF). exists infos. split; auto. left. exists (js_parser st). auto.
  - destruct (get_lt (js_path st) (length (js_path st) - 1) ltac:(lia)) as (prev & Epv). rewrite Epv. cbn [bind]. apply get_ok in Epv.
    assert (OK : info_ok lexinfo prev).
    { eapply Forall_forall in IP; [exact IP|]. rewrite EP. apply in_or_app. right.
      assert (LL : length A <= length (js_path st) - 1) by lia. rewrite Epath in Epv at 1.
      rewrite nth_error_app2 in Epv by exact LL. eapply nth_error_In; eauto. }
    destruct OK as (pinfo & Epi). rewrite Epi. cbn [bind].
    destruct (trailing p' (wi_norm pinfo)) eqn:Tr; [|eauto].
    destruct (trailing_spec (js_path st) b (length (js_path st)) _ _ _ _ ltac:(lia) ltac:(lia) HF Ed Epv Epi Tr) as (Hb1 & JU).
    destruct (jinv_concat (js_path st) P0 A T b (length (js_path st) - 1) p' (b + 1) true true p')
      as (path' & E & _ & _ & I'); auto; try lia. eauto.
Qed.

Lemma jn_loop_spec f : forall st, jinv st ->
  jn_loop lexinfo cfg it f st = Err EFuel \/ exists q, jn_loop lexinfo cfg it f st = Ok q /\ joined R [] P q.
Proof.
  induction f as [|f IH]; intros st I; cbn [jn_loop]; [now left|].
  destruct (Nat.ltb_spec (js_next st) (length (js_path st))) as [L|L].
  - destruct (jn_step_spec st I L) as (st' & E & I'). rewrite E. cbn [bind]. now apply IH.
  - right. now apply jn_finish_spec.
Qed.
End num.
