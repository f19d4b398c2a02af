(** C20, C23-C25, C28: whole analyses. *)
From Coq Require Import List ZArith Lia Bool Arith.
From Verif Require Import Base Utf8 M_Builder M_InputText M_Lattice M_Oov M_Tokenizer M_Morphemes S_Text S_Lattice
  P_Builder P_InputText P_Accessors P_Oov P_Lattice P_Tokenizer P_Path P_Config P_History P_Morphemes
  Prop_Text Prop_Lattice.
Import ListNotations.
Open Scope nat_scope.

(** What is asked of path rewriting: it depends on the lattice only at positions of
    the text, and turns a tiling of the text into a tiling.  JoinKatakanaOovPlugin and
    JoinNumericPlugin do so (C29, C30). *)
Definition good_rewrites (cfg : config) : Prop :=
  forall q, In q (cf_rewrites cfg) -> local_rewrite q /\ tiling_rewrite q.

(** ** C20 *)
(** The result does not depend on the earlier calls, unless one of them failed
    while the lattice was being built or the path rewritten. *)
Theorem C20_history_independent_partial cfg lat t m :
  sane cfg -> good_rewrites cfg -> usable cfg lat ->
  snd (run cfg lat t m) = snd (run cfg new_lattice t m).
Proof.
  intros S G U. apply run_same; auto.
  - now apply usable_clean with (cfg := cfg).
  - apply new_clean.
Qed.
Print Assumptions C20_history_independent_partial.

(** After a failed call the words of its text are still there: "b" is then analysed
    as the word "a" (id 0) that was found in "a?" before the call failed. *)
Definition stale_cfg : config :=
  Config (fun _ _ => Some 0%Z) (fun _ => [DEFAULT])
    (fun bs i => (match nth_error bs i with Some 97 => [(0, S i)] | Some 98 => [(1, S i)] | _ => [] end, None)%Z)
    (fun w => Ok (1, 1, 10 * (1 + w))%Z) (fun _ => Err EKey) [] [] [].
Theorem C20_after_failure_refuted :
  exists lat e it p it' p',
    run stale_cfg new_lattice [97; 63]%Z ModeC = (lat, Err e) /\
    snd (run stale_cfg lat [98]%Z ModeC) = Ok (Some (it, p)) /\
    snd (run stale_cfg new_lattice [98]%Z ModeC) = Ok (Some (it', p')) /\
    map w_id p = [0%Z] /\ map w_id p' = [1%Z].
Proof.
  eexists _, _, _, _, _, _. split; [vm_compute; reflexivity|]. split; [vm_compute; reflexivity|].
  split; [vm_compute; reflexivity|]. split; reflexivity.
Qed.
Print Assumptions C20_after_failure_refuted.

(** A tokenizer that has analysed two texts, once failing in the preparation (a lone
    surrogate). *)
Example C20_nonvacuous :
  exists lat, usable (toy_cfg [toy_simple]) lat /\ lat <> new_lattice /\
    good_rewrites (toy_cfg [toy_simple]) /\
    exists it p, snd (run (toy_cfg [toy_simple]) lat [97; 98; 99; 120]%Z ModeC) = Ok (Some (it, p)) /\ length p = 3.
Proof.
  set (cfg := toy_cfg [toy_simple]).
  set (l1 := fst (run cfg new_lattice [97; 98]%Z ModeC)). set (l2 := fst (run cfg l1 [0xD800]%Z ModeC)).
  assert (Hok : forall l t, usable cfg l -> is_ok (snd (run cfg l t ModeC)) = true -> usable cfg (fst (run cfg l t ModeC))).
  { intros l t Hu Hr. destruct (run cfg l t ModeC) as [l' [r|]] eqn:E; [|discriminate]. eapply us_success; eauto. }
  exists (fst (run cfg l2 [99]%Z ModeC)). split.
  { apply Hok; [|vm_compute; reflexivity]. eapply us_prepare_error; [|vm_compute; reflexivity].
    apply Hok; [apply us_new|vm_compute; reflexivity]. }
  split; [|split; [intros q []|]].
  - intros H. apply (f_equal l_cap) in H. vm_compute in H. discriminate.
  - eexists _, _. split; [vm_compute; reflexivity|]. reflexivity.
Qed.

(** ** C23 *)
Lemma run_inv cfg lat t m lat' r : run cfg lat t m = (lat', Ok r) ->
  (t = [] /\ r = None) \/
  exists it lat1 p p1 p2, t <> [] /\ run_prepare cfg t = Ok it /\ run_analyse cfg lat it = (lat1, Ok p) /\
    foldM (fun p plugin => plugin it p lat1) p (cf_rewrites cfg) = Ok p1 /\ lat_clear lat1 = Ok lat' /\
    split_path (cf_lexinfo cfg) m p1 = Ok p2 /\ r = Some (it, p2).
Proof.
  unfold run, tokenize. destruct t as [|c t0]; [intros [= _ <-]; auto|]. intros E. right.
  change (prepare _ _ (c :: t0)) with (run_prepare cfg (c :: t0)) in E.
  destruct (run_prepare cfg (c :: t0)) as [it|] eqn:Ep; [|discriminate].
  change (analyse _ _ _ _ _ lat it) with (run_analyse cfg lat it) in E.
  destruct (run_analyse cfg lat it) as [lat1 [p|]] eqn:Ea; [|discriminate].
  destruct (foldM _ p _) as [p1|] eqn:Ef; [|discriminate].
  destruct (lat_clear lat1) as [lat2|] eqn:El; [|discriminate].
  destruct (split_path _ m p1) as [p2|] eqn:Es; [|discriminate]. injection E as <- <-.
  exists it, lat1, p, p1, p2. split; [discriminate|]. auto 10.
Qed.

Lemma rewrites_tile cfg it lat p p1 : good_rewrites cfg -> lists_end (length (it_bytes it)) lat ->
  tiles 0 (map to_step p) (length (it_bytes it)) ->
  foldM (fun p plugin => plugin it p lat) p (cf_rewrites cfg) = Ok p1 ->
  tiles 0 (map to_step p1) (length (it_bytes it)).
Proof.
  intros G LE Ht E.
  apply (foldM_inv (fun p => tiles 0 (map to_step p) (length (it_bytes it)))
           (fun p plugin => plugin it p lat) (cf_rewrites cfg) p p1); auto.
  intros q s s' Hq Hs Eq. destruct (G q Hq) as (_ & HT). eapply HT; eauto.
Qed.

(** The path before splitting tiles the text. *)
Lemma run_tiles cfg lat t m lat' it p : sane cfg -> good_rewrites cfg -> usable cfg lat ->
  run cfg lat t m = (lat', Ok (Some (it, p))) ->
  exists bd pc, builder_wf t bd /\ built (b_mod bd) t (b_m2o bd) (map (cf_category cfg) (b_mod bd)) it /\
    run cfg lat t ModeC = (lat', Ok (Some (it, pc))) /\ split_path (cf_lexinfo cfg) m pc = Ok p /\
    tiles 0 (map to_step pc) (length (it_bytes it)).
Proof.
  intros S G U E.
  destruct (run_inv _ _ _ _ _ _ E) as [(_ & [=])|(it' & lat1 & p0 & p1 & p2 & Ht & Ep & Ea & Ef & El & Es & [= <- <-])].
  destruct (run_prepare_built cfg t it S Ht Ep) as (bd & Hwf & _ & B).
  destruct (analyse_path S B lat lat1 p0 (usable_clean _ _ S U) Ea) as (A1 & _ & _).
  destruct (analyse_lists S B lat lat1 _ (usable_clean _ _ S U) Ea) as (LE & _).
  exists bd, p1. split; auto. split; auto. split; [|split; auto].
  - unfold run, tokenize. destruct t as [|c t0]; [congruence|].
    change (prepare _ _ (c :: t0)) with (run_prepare cfg (c :: t0)). rewrite Ep.
    change (analyse _ _ _ _ _ lat it) with (run_analyse cfg lat it). rewrite Ea, Ef, El. reflexivity.
  - eapply rewrites_tile; eauto.
Qed.

Theorem C23_surfaces_concatenate cfg lat t lat' r :
  sane cfg -> good_rewrites cfg -> usable cfg lat ->
  run cfg lat t ModeC = (lat', Ok r) ->
  let l := morphemes_of r in
  ml_str l = Ok t /\
  forall i, i < ml_len l -> exists b e, ml_begin l i = Ok b /\ ml_end l i = Ok e /\ b <= e <= length t /\
    ml_surface l i = Ok (slice t b e) /\
    (S i < ml_len l -> ml_begin l (S i) = Ok e) /\ (i = 0 -> b = 0) /\ (S i = ml_len l -> e = length t).
Proof.
  intros Sn G U E. destruct r as [[it p]|]; cbn zeta.
  2:{ destruct (run_inv _ _ _ _ _ _ E) as [(-> & _)|(it' & ? & ? & ? & ? & _ & _ & _ & _ & _ & _ & [=])].
      split; [reflexivity|]. intros i Hi. cbn in Hi. lia. }
  destruct (run_tiles _ _ _ _ _ _ _ Sn G U E) as (bd & pc & (Ho & PM) & B & _ & Es & Ht).
  injection Es as ->. cbn [morphemes_of]. pose proof (tiles_covers _ _ _ Ht) as Hc.
  split; [eapply covers_str; eauto|].
  intros i Hi. unfold ml_len in *. cbn [ml_path] in *.
  (* the node and its neighbours *)
  assert (Hnth : forall q b e i w, covers b (map to_step q) e -> nth_error q i = Some w ->
     b <= w_begin w /\ w_begin w <= w_end w /\ w_end w <= e /\ (i = 0 -> w_begin w = b) /\
     (forall w', nth_error q (S i) = Some w' -> w_begin w' = w_end w) /\ (S i = length q -> w_end w = e)).
  { clear. induction q as [|x q IH]; intros b e i w Hc Hi; [destruct i; discriminate|].
    cbn [map covers to_step s_begin s_end] in Hc. destruct Hc as (H1 & H2 & H3). destruct i as [|i].
    - injection Hi as <-. pose proof (covers_le _ _ _ H3). repeat split; try lia.
      + intros w' Hw'. cbn [nth_error] in Hw'. destruct q as [|y q]; [discriminate|]. injection Hw' as <-.
        cbn in H3. tauto.
      + intros Hl. cbn [length] in Hl. destruct q; [|discriminate]. exact H3.
    - cbn [nth_error] in Hi. destruct (IH _ _ _ _ H3 Hi) as (A1 & A2 & A3 & A4 & A5 & A6).
      repeat split; try lia.
      + exact A5.
      + cbn [length]. intros Hl. apply A6. lia. }
  destruct (nth_error p i) as [w|] eqn:Ew; [|apply nth_error_None in Ew; lia].
  destruct (Hnth p 0 (length (it_bytes it)) i w Hc Ew) as (A1 & A2 & A3 & A4 & A5 & A6).
  destruct (ml_surface_spec B PM p i w Ew A2 A3) as (b & e & Eb & Ee & Hbe & Hsf).
  exists b, e. split; auto. split; auto. split; auto. split; auto. split; [|split].
  - intros Hi'. destruct (nth_error p (S i)) as [w'|] eqn:Ew'; [|apply nth_error_None in Ew'; lia].
    unfold ml_begin, ml_end, ml_input in *. cbn [ml_text ml_path bind] in *.
    assert (Hg : get p i = Ok w) by now apply get_ok. assert (Hg' : get p (S i) = Ok w') by now apply get_ok.
    rewrite Hg in Ee. rewrite Hg'. cbn [bind] in *. now rewrite (A5 w' eq_refl).
  - intros ->. destruct (original_index_ends B PM) as (E0 & _).
    unfold ml_begin, ml_input in Eb. cbn [ml_text ml_path bind] in Eb.
    assert (Hg : get p 0 = Ok w) by now apply get_ok. rewrite Hg in Eb. cbn [bind] in Eb. rewrite (A4 eq_refl), E0 in Eb. congruence.
  - intros Hi'. destruct (original_index_ends B PM) as (_ & E0).
    unfold ml_end, ml_input in Ee. cbn [ml_text ml_path bind] in Ee.
    assert (Hg : get p i = Ok w) by now apply get_ok. rewrite Hg in Ee. cbn [bind] in Ee. rewrite (A6 Hi'), E0 in Ee. congruence.
Qed.
Print Assumptions C23_surfaces_concatenate.

(** ** C24 *)
(** In mode A or B the surfaces concatenate to the text if, for each word of the
    C-mode analysis that has units, the byte lengths of the units add up to it. *)
Theorem C24_split_coverage_partial cfg lat t m lat' latc r rc :
  sane cfg -> good_rewrites cfg -> usable cfg lat -> m <> ModeC ->
  run cfg lat t ModeC = (latc, Ok rc) -> Forall (fits (cf_lexinfo cfg) m) (ml_path (morphemes_of rc)) ->
  run cfg lat t m = (lat', Ok r) ->
  ml_str (morphemes_of r) = Ok t /\
  forall i, i < ml_len (morphemes_of r) -> exists b e, ml_begin (morphemes_of r) i = Ok b /\
    ml_end (morphemes_of r) i = Ok e /\ b <= e <= length t /\ ml_surface (morphemes_of r) i = Ok (slice t b e).
Proof.
  intros S G U Hm EC HF E. destruct r as [[it p]|].
  2:{ destruct (run_inv _ _ _ _ _ _ E) as [(-> & _)|(it' & ? & ? & ? & ? & _ & _ & _ & _ & _ & _ & [=])].
      split; [reflexivity|]. intros i Hi. cbn in Hi. lia. }
  destruct (run_tiles _ _ _ _ _ _ _ S G U E) as (bd & pc & (Ho & PM) & B & EC' & Es & Ht).
  rewrite EC in EC'. injection EC' as -> ->. cbn [morphemes_of ml_path] in HF.
  pose proof (split_path_covers _ _ _ _ _ _ Hm (tiles_covers _ _ _ Ht) HF Es) as Hc.
  cbn [morphemes_of]. split; [eapply covers_str; eauto|].
  intros i Hi. unfold ml_len in Hi. cbn [ml_path] in Hi.
  destruct (nth_error p i) as [w|] eqn:Ew; [|apply nth_error_None in Ew; lia].
  assert (Hb : w_begin w <= w_end w /\ w_end w <= length (it_bytes it)).
  { clear - Hc Ew. revert i w Ew. revert Hc. generalize 0. induction p as [|x p IH]; intros b Hc i w Ew; [destruct i; discriminate|].
    cbn [map covers to_step s_begin s_end] in Hc. destruct Hc as (H1 & H2 & H3). destruct i as [|i].
    - injection Ew as <-. pose proof (covers_le _ _ _ H3). lia.
    - exact (IH _ H3 i w Ew). }
  destruct Hb as (Hb1 & Hb2). exact (ml_surface_spec B PM p i w Ew Hb1 Hb2).
Qed.
Print Assumptions C24_split_coverage_partial.

(** The dictionary builder does not check this: a word "ab" with three units of
    one byte each makes "c" appear twice. *)
Definition short_info (len : nat) (a : list Z) : word_info := WordInfo [97]%Z len 0 [97]%Z (-1) [97]%Z [] a [] [] [].
Definition short_cfg : config :=
  Config toy_view (fun _ => [DEFAULT])
    (fun bs i => (match skipn i bs with [97; 98; 99] => [(1, S (S i))] | [99] => [(0, S i)] | _ => [] end, None)%Z)
    toy_params (fun w => Ok (if (w =? 1)%Z then short_info 2 [0; 0; 0]%Z else short_info 1 [])) [] [] [].
Theorem C24_split_refuted :
  exists lat' r, run short_cfg new_lattice [97; 98; 99]%Z ModeA = (lat', Ok r) /\
    map (fun w => (w_begin w, w_end w)) (ml_path (morphemes_of r)) = [(0, 1); (1, 2); (2, 3); (2, 3)] /\
    ml_str (morphemes_of r) = Ok [97; 98; 99; 99]%Z.
Proof. eexists _, _. split; [vm_compute; reflexivity|]. split; reflexivity. Qed.
Print Assumptions C24_split_refuted.

Example C23_C24_nonvacuous :
  exists lat' r, run (Config toy_view (fun _ => [DEFAULT]) toy_lookup toy_params
      (fun w => Ok (if (w =? 3)%Z then short_info 2 [2; 4]%Z else short_info 1 [])) [] [toy_simple] [])
    new_lattice [97; 98; 99; 0x3042]%Z ModeA = (lat', Ok r) /\
    mapM (ml_surface (morphemes_of r)) (ml_iter (morphemes_of r)) = Ok [[97]; [98]; [99]; [0x3042]]%Z.
Proof. eexists _, _. split; [vm_compute; reflexivity|]. reflexivity. Qed.

(** ** C25 *)
(** Splitting each morpheme of the C-mode analysis (with Morpheme.split), in order,
    gives the morphemes of the A- or B-mode analysis, and fails if and only if that
    analysis fails.  The second analysis may be run on another usable tokenizer. *)
Theorem C25_split_of_C cfg lat lat2 t m latc rc :
  sane cfg -> good_rewrites cfg -> usable cfg lat -> usable cfg lat2 -> m <> ModeC ->
  run cfg lat t ModeC = (latc, Ok rc) ->
  let l := morphemes_of rc in
  match mapM (ml_split (cf_lexinfo cfg) l m) (ml_iter l), snd (run cfg lat2 t m) with
  | Ok parts, Ok r => morphemes_of r = Morphemes (ml_text l) (concat (map ml_path parts))
  | Err e, Err e' => e = e'
  | _, _ => False
  end.
Proof.
  intros S G U U2 Hm E l.
  rewrite (run_same cfg lat2 lat t m S G (usable_clean _ _ S U2) (usable_clean _ _ S U)).
  destruct (run_inv _ _ _ _ _ _ E) as [(-> & ->)|(it & lat1 & p & p1 & p2 & Ht & Ep & Ea & Ef & El & Es & ->)].
  - reflexivity.
  - injection Es as <-. subst l. cbn [morphemes_of ml_iter ml_path ml_text].
    pose proof (ml_split_all (cf_lexinfo cfg) m (Some it) p1 Hm []) as HS. cbn [app length] in HS.
    unfold ml_iter. cbn [ml_path]. rewrite HS.
    unfold run, tokenize. destruct t as [|c t0]; [congruence|].
    change (prepare _ _ (c :: t0)) with (run_prepare cfg (c :: t0)). rewrite Ep.
    change (analyse _ _ _ _ _ lat it) with (run_analyse cfg lat it). rewrite Ea, Ef, El.
    assert (Hsp : split_path (cf_lexinfo cfg) m p1 = (nss <- mapM (split_one (cf_lexinfo cfg) m) p1 ;; Ok (concat nss)))
      by (destruct m; auto; congruence).
    rewrite Hsp. destruct (mapM (split_one (cf_lexinfo cfg) m) p1) as [nss|x]; cbn [bind snd]; auto.
    cbn [morphemes_of]. f_equal. rewrite map_map. cbn [ml_path]. now rewrite map_id.
Qed.
Print Assumptions C25_split_of_C.

(** ** C28 *)
(** Words of the dictionaries 0..7 all become candidates. *)
Theorem C28_first_eight_partial cfg it i :
  sane cfg ->
  (forall wid e, In (wid, e) (fst (cf_lookup cfg (it_bytes it) i)) ->
     (e < length (it_bytes it) -> exists b, can_bow it e = Ok b) /\
     exists d w l r c, (0 <= d < 8)%Z /\ (0 <= w < 2 ^ 28)%Z /\ wid = (d * 2 ^ 28 + w)%Z /\ cf_params cfg wid = Ok (l, r, c)) ->
  forall wid e l r c, In (wid, e) (fst (cf_lookup cfg (it_bytes it) i)) ->
    (e < length (it_bytes it) -> can_bow it e = Ok true) -> cf_params cfg wid = Ok (l, r, c) ->
    In (WNode i e l r c wid false true None) (fst (run_candidates cfg it i)).
Proof.
  intros S H wid e l r c Hin Hb Hp. unfold run_candidates, candidates.
  destruct (cf_lookup cfg (it_bytes it) i) as [found x0]. cbn [fst] in *.
  assert (Hx : snd (lex_words (cf_params cfg) it i found) = None).
  { clear - H. induction found as [|[w e] found IH]; [reflexivity|]. cbn [lex_words].
    destruct (H w e (or_introl eq_refl)) as (Hb & d & v & l & r & c & Hd & Hv & Hw & Hp).
    assert (IH' : snd (lex_words (cf_params cfg) it i found) = None) by (apply IH; intros; apply H; now right).
    assert (Eb : exists b, (if e <? length (it_bytes it) then can_bow it e else Ok true) = Ok b).
    { destruct (Nat.ltb_spec e (length (it_bytes it))); eauto. }
    destruct Eb as (b & ->). destruct b; [|exact IH'].
    rewrite Hp. cbn [bind]. unfold lex_node, to_int.
    destruct ((- 2147483648 <=? w) && (w <=? 2147483647))%Z eqn:Ew; [|Zbool; lia]. cbn [bind].
    destruct (lex_words (cf_params cfg) it i found). exact IH'. }
  pose proof (lex_words_complete (cf_params cfg) it i found wid e l r c Hx Hin Hb Hp) as Hw.
  destruct (lex_words (cf_params cfg) it i found) as [ws x1]. cbn [fst snd] in *. subst x1.
  destruct x0; [exact Hw|]. destruct (get_cats_at it i); [|exact Hw].
  destruct (if cat_mem NOOOVBOW a then _ else _) as [os x2].
  destruct x2; [apply in_or_app; auto|].
  destruct ws as [|w ws]; [contradiction|]. cbn [app fst]. destruct Hw as [Hw|Hw]; [left; auto|right; apply in_or_app; auto].
Qed.
Print Assumptions C28_first_eight_partial.

(** A word of the ninth dictionary (index 8) makes the analysis fail. *)
Definition ninth_cfg : config :=
  Config toy_view (fun _ => [DEFAULT])
    (fun bs i => (match nth_error bs i with Some 97 => [(8 * 2 ^ 28, S i)] | _ => [] end, None)%Z)
    (fun _ => Ok (1, 1, 10)%Z) (fun _ => Ok (short_info 1 [])) [] [toy_simple] [].
Theorem C28_ninth_refuted :
  exists lat', run ninth_cfg new_lattice [97]%Z ModeC = (lat', Err EOverflow).
Proof. eexists. vm_compute. reflexivity. Qed.
Print Assumptions C28_ninth_refuted.
