(** C15-C19: the path that a tokenizer chooses. *)
From Coq Require Import List ZArith Lia Bool Arith.
From Verif Require Import Base Utf8 M_Builder M_InputText M_Lattice M_Oov M_Tokenizer S_Text S_Lattice
  P_Builder P_InputText P_Accessors P_Oov P_Lattice P_Tokenizer P_Path P_Config.
Import ListNotations.
Open Scope nat_scope.

(** An analysis of the text: considered words (found in the dictionary or made by
    the OOV providers) that tile it, no connection being inhibited. *)
Definition analysis (cfg : config) (it : input_text) (q : list wnode) : Prop :=
  tiles 0 (map to_step q) (length (it_bytes it)) /\
  Forall (considered (cfg := cfg) (it := it)) q /\
  allowed (cf_conn cfg) INHIBITED 0 (map to_step q) 0.
Definition total_cost (cfg : config) (q : list wnode) : Z := cost_from (cf_conn cfg) 0 (map to_step q) 0.

Lemma analyse_optimal cfg M lat t it lat' r :
  sane cfg -> usable cfg lat -> t <> [] -> run_prepare cfg t = Ok it ->
  (forall w a b, considered (cfg := cfg) (it := it) w -> (Z.abs (w_cost w + cf_conn cfg a b) <= M)%Z) ->
  (forall a b, (Z.abs (cf_conn cfg a b) <= M)%Z) ->
  ((Z.of_nat (length (it_bytes it)) + 1) * M < 2147483647)%Z -> ids_inside cfg ->
  (forall i q, tiles 0 (map to_step q) i -> Forall (considered (cfg := cfg) (it := it)) q -> can_bow it i = Ok true ->
     snd (run_candidates cfg it i) = None) ->
  run_analyse cfg lat it = (lat', r) ->
  match r with
  | Ok p => analysis cfg it p /\ forall q, analysis cfg it q -> (total_cost cfg p <= total_cost cfg q)%Z
  | Err e => e = EAttribute /\ forall q, ~ analysis cfg it q
  end.
Proof.
  intros S U Ht Hp Mw Mc Mt HI Hx E.
  destruct (run_prepare_built cfg t it S Ht Hp) as (bd & _ & _ & B).
  pose proof (usable_clean _ _ S U) as Hc. destruct (considered_inside B HI) as (HI1 & HI2).
  unfold run_analyse, analyse in E.
  destruct (build_lattice_total (cf_view cfg) bos_parameter eos_parameter (can_bow it) (run_candidates cfg it)
    (length (it_bytes it)) (considered_range S B) (fun i w => candidates_begin _ _ _ it i w)) with (lat := lat) as (lat1 & E1); auto.
  { intros i Hi. destruct (in_char_exists _ _ i (bt_enc B) Hi) as (k & Hk).
    destruct (can_bow_spec B i k Hk) as (b & Eb & _). eauto. }
  { intros i q Hi Hb Hq. apply rpath_tiles in Hq as (Hq1 & Hq2); [|apply (considered_range S B)].
    apply (Hx i (rev q)); auto. now apply Forall_rev. }
  pose proof (best_path_optimal (cf_view cfg) bos_parameter eos_parameter (can_bow it) (run_candidates cfg it)
    (length (it_bytes it)) M (considered_range S B) (fun i w => candidates_begin _ _ _ it i w) Mw Mc Mc Mt HI1 HI2 lat lat1 Hc E1) as HO.
  unfold run_candidates in E1. rewrite E1 in E. injection E as <- <-. exact HO.
Qed.

Lemma analyse_ok_optimal cfg M lat t it lat' p :
  sane cfg -> usable cfg lat -> t <> [] -> run_prepare cfg t = Ok it ->
  (forall w a b, considered (cfg := cfg) (it := it) w -> (Z.abs (w_cost w + cf_conn cfg a b) <= M)%Z) ->
  (forall a b, (Z.abs (cf_conn cfg a b) <= M)%Z) ->
  ((Z.of_nat (length (it_bytes it)) + 1) * M < 2147483647)%Z -> ids_inside cfg ->
  run_analyse cfg lat it = (lat', Ok p) ->
  analysis cfg it p /\ forall q, analysis cfg it q -> (total_cost cfg p <= total_cost cfg q)%Z.
Proof.
  intros S U Ht Hp Mw Mc Mt HI E.
  destruct (run_prepare_built cfg t it S Ht Hp) as (bd & _ & _ & B).
  pose proof (usable_clean _ _ S U) as Hc. destruct (considered_inside B HI) as (HI1 & HI2).
  unfold run_analyse, analyse in E.
  destruct (build_lattice _ _ _ _ lat _) as [lat1 [x|]] eqn:E1; [discriminate|].
  pose proof (best_path_optimal (cf_view cfg) bos_parameter eos_parameter (can_bow it) (run_candidates cfg it)
    (length (it_bytes it)) M (considered_range S B) (fun i w => candidates_begin _ _ _ it i w) Mw Mc Mc Mt HI1 HI2 lat lat1 Hc E1) as HO.
  injection E as <- E. rewrite E in HO. exact HO.
Qed.

Lemma bits16_sum cfg it t0 orig m2o cats : sane cfg -> built t0 orig m2o cats it -> costs_in bits16 bits16 cfg ->
  (forall w a b, considered (cfg := cfg) (it := it) w -> (Z.abs (w_cost w + cf_conn cfg a b) <= 65536)%Z) /\
  (forall a b, (Z.abs (cf_conn cfg a b) <= 65536)%Z).
Proof.
  intros S B C. split.
  - intros w a b Hw. pose proof (considered_cost B _ _ w C Hw). pose proof (ci_conn _ _ _ C a b).
    unfold bits16 in *. lia.
  - intros a b. pose proof (ci_conn _ _ _ C a b). unfold bits16 in *. lia.
Qed.

(** ** C15 *)
Theorem C15_minimal_cost cfg lat t it lat' p :
  sane cfg -> costs_in bits16 bits16 cfg -> ids_inside cfg -> usable cfg lat -> t <> [] ->
  run_prepare cfg t = Ok it -> (Z.of_nat (length (it_bytes it)) <= 32766)%Z ->
  run_analyse cfg lat it = (lat', Ok p) ->
  analysis cfg it p /\ forall q, analysis cfg it q -> (total_cost cfg p <= total_cost cfg q)%Z.
Proof.
  intros S C HI U Ht Hp Hn E.
  destruct (run_prepare_built cfg t it S Ht Hp) as (bd & _ & _ & B).
  destruct (bits16_sum cfg it _ _ _ _ S B C) as (Mw & Mc).
  eapply analyse_ok_optimal with (M := 65536%Z); eauto. lia.
Qed.
Print Assumptions C15_minimal_cost.

(** The words that are considered at a position where a word may begin: dictionary
    words that end where a word may begin or at the end of the text - all of them -
    and otherwise only what an OOV provider offers there. *)
Theorem C15_considered_words cfg it i :
  i < length (it_bytes it) -> can_bow it i = Ok true -> snd (run_candidates cfg it i) = None ->
  (forall wid e l r c, In (wid, e) (fst (cf_lookup cfg (it_bytes it) i)) ->
     (e < length (it_bytes it) -> can_bow it e = Ok true) -> cf_params cfg wid = Ok (l, r, c) ->
     considered (cfg := cfg) (it := it) (WNode i e l r c wid false true None)) /\
  (forall w, considered (cfg := cfg) (it := it) w -> w_begin w = i ->
     (exists wid e l r c, In (wid, e) (fst (cf_lookup cfg (it_bytes it) i)) /\
        (e < length (it_bytes it) -> can_bow it e = Ok true) /\ cf_params cfg wid = Ok (l, r, c) /\
        w = WNode i e l r c wid false true None) \/
     (exists p has ns, In p (cf_providers cfg) /\ get_oov p it i has = Ok ns /\ In w ns)).
Proof.
  intros Hi Hb Hx. split.
  - intros wid e l r c H1 H2 H3. split; [exact Hi|]. split; [exact Hb|]. cbn [w_begin].
    now apply candidates_complete.
  - intros w (H1 & H2 & H3) <-. apply candidates_sound in H3 as [(wid & e & l & r & c & A1 & A2 & A3 & _ & A4)|H].
    + left. exists wid, e, l, r, c. auto.
    + right. exact H.
Qed.
Print Assumptions C15_considered_words.

(** ** C16 *)
Theorem C16_fails_iff_no_analysis cfg lat t it lat' r :
  sane cfg -> costs_in bits16 bits16 cfg -> ids_inside cfg -> usable cfg lat -> t <> [] ->
  run_prepare cfg t = Ok it -> (Z.of_nat (length (it_bytes it)) <= 32766)%Z ->
  (* no exception while candidates are collected at the positions that words reach *)
  (forall i q, tiles 0 (map to_step q) i -> Forall (considered (cfg := cfg) (it := it)) q -> can_bow it i = Ok true ->
     snd (run_candidates cfg it i) = None) ->
  run_analyse cfg lat it = (lat', r) ->
  (r = Err EAttribute <-> forall q, ~ analysis cfg it q) /\
  ((exists p, r = Ok p) <-> exists q, analysis cfg it q).
Proof.
  intros S C HI U Ht Hp Hn Hx E.
  destruct (run_prepare_built cfg t it S Ht Hp) as (bd & _ & _ & B).
  destruct (bits16_sum cfg it _ _ _ _ S B C) as (Mw & Mc).
  pose proof (analyse_optimal cfg 65536 lat t it lat' r S U Ht Hp Mw Mc ltac:(lia) HI Hx E) as H.
  destruct r as [p|e].
  - destruct H as (Hp1 & _). split; split; try discriminate; eauto.
    intros Hno. exfalso. exact (Hno p Hp1).
  - destruct H as (-> & Hno). split; split; auto.
    + intros (p & [=]).
    + intros (q & Hq). exfalso. exact (Hno q Hq).
Qed.
Print Assumptions C16_fails_iff_no_analysis.

(** A position where a word may begin and none is considered is reported as an error, it is
    not passed over. *)
Theorem C16_gap_is_reported cfg it i :
  i < length (it_bytes it) -> can_bow it i = Ok true ->
  (forall w, considered (cfg := cfg) (it := it) w -> w_begin w <> i) ->
  exists e, snd (run_candidates cfg it i) = Some e.
Proof.
  intros Hi Hb Hn. destruct (snd (run_candidates cfg it i)) as [e|] eqn:E; [eauto|exfalso].
  pose proof (candidates_nonempty _ _ _ _ _ E) as N. fold (run_candidates cfg it i) in N.
  destruct (fst (run_candidates cfg it i)) as [|w ws] eqn:Ew; [congruence|].
  assert (W : In w (fst (run_candidates cfg it i))) by (rewrite Ew; now left).
  pose proof (candidates_begin _ _ _ it i w W) as Bw.
  apply (Hn w); [|exact Bw]. unfold considered, cand_word. rewrite Bw. auto.
Qed.
Print Assumptions C16_gap_is_reported.

(** ** C17 *)
(** Longer texts are fine as long as the costs are small enough. *)
Theorem C17_longer_texts_partial cfg K W lat t it lat' p :
  sane cfg -> costs_in (fun z => Z.abs z <= K)%Z (fun z => Z.abs z <= W)%Z cfg -> ids_inside cfg -> usable cfg lat -> t <> [] ->
  run_prepare cfg t = Ok it -> ((Z.of_nat (length (it_bytes it)) + 1) * (K + W) < 2147483647)%Z ->
  run_analyse cfg lat it = (lat', Ok p) ->
  analysis cfg it p /\ forall q, analysis cfg it q -> (total_cost cfg p <= total_cost cfg q)%Z.
Proof.
  intros S C HI U Ht Hp Hn E.
  destruct (run_prepare_built cfg t it S Ht Hp) as (bd & _ & _ & B).
  destruct (Z_lt_le_dec W 0) as [HW|HW].
  - (* no word is considered at all, and the text is not empty *)
    assert (Hno : forall w, ~ considered (cfg := cfg) (it := it) w).
    { intros w Hw. pose proof (considered_cost B _ _ w C Hw). cbn in *. lia. }
    destruct (analyse_path S B lat lat' p (usable_clean _ _ S U) E) as (A1 & A2 & A3).
    split; [split; auto|]. intros q (Q1 & Q2 & _).
    assert (p = []) by (destruct p; auto; inversion A2; exfalso; eapply Hno; eauto).
    assert (q = []) by (destruct q; auto; inversion Q2; exfalso; eapply Hno; eauto).
    subst. lia.
  - eapply analyse_ok_optimal with (M := (K + W)%Z); eauto.
    + intros w a b Hw. pose proof (considered_cost B _ _ w C Hw). pose proof (ci_conn _ _ _ C a b). cbn in *. lia.
    + intros a b. pose proof (ci_conn _ _ _ C a b). cbn in *. lia.
Qed.
Print Assumptions C17_longer_texts_partial.

(** ** C18 *)
Theorem C18_path_tiles cfg lat t it lat' p :
  sane cfg -> usable cfg lat -> t <> [] -> run_prepare cfg t = Ok it ->
  run_analyse cfg lat it = (lat', Ok p) ->
  p <> [] /\ tiles 0 (map to_step p) (length (it_bytes it)) /\
  Forall (considered (cfg := cfg) (it := it)) p.
Proof.
  intros S U Ht Hp E.
  destruct (run_prepare_built cfg t it S Ht Hp) as (bd & Hwf & _ & B).
  destruct (analyse_path S B lat lat' p (usable_clean _ _ S U) E) as (A1 & A2 & A3).
  split; auto. intros ->. cbn in A1.
  assert (Hl : 0 < length (b_mod bd)).
  { destruct Hwf as (Ho & Hl & H0 & Hn & _). destruct (b_mod bd) as [|c m]; [|cbn; lia].
    cbn [length] in Hn. rewrite H0 in Hn. injection Hn as Hn. destruct t; [congruence|discriminate]. }
  pose proof (char_start_lt (b_mod bd) 0 (length (b_mod bd)) Hl (le_n _)) as H.
  rewrite (len_bytes B), char_start_0 in H. lia.
Qed.
Print Assumptions C18_path_tiles.

(** ** C19 *)
(** Inserting a word appends it, connected, to the nodes that end with it; the
    predecessor kept is the first one of least cost among those at its beginning.  If the
    matrix has no cell for one of those that are connected, the word stays unconnected. *)
Theorem C19_first_inserted_wins view lat w lat' :
  lat_insert view lat w = Ok lat' ->
  exists before nd at_begin,
    nth_error (l_lists lat) (w_end w) = Some before /\ nth_error (l_lists lat') (w_end w) = Some (before ++ [nd]) /\
    nth_error (l_lists lat) (w_begin w) = Some at_begin /\ ln_word nd = w /\
    let conn := cost_of view in
    let possible l := connected l = true /\ conn (w_left w) (w_right (ln_word l)) <> INHIBITED in
    let cost l := wrap32 (ln_total l + conn (w_left w) (w_right (ln_word l))) in
    ((exists x, In x at_begin /\ connected x = true /\ view (w_left w) (w_right (ln_word x)) = None) -> ln_prev nd = None) /\
    ((forall x, In x at_begin -> connected x = true -> view (w_left w) (w_right (ln_word x)) <> None) ->
    match ln_prev nd with
    | Some l => exists pre post, at_begin = pre ++ l :: post /\ possible l /\
        (forall x, In x pre -> possible x -> (cost l < cost x)%Z) /\
        (forall x, In x post -> possible x -> (cost l <= cost x)%Z)
    | None => forall x, In x at_begin -> possible x -> (INT_MAX <= cost x)%Z
    end).
Proof.
  intros E. unfold lat_insert in E.
  apply bind_ok in E as (ls & Els & E). apply bind_ok in E as (nd & En & E). apply bind_ok in E as (lists & Es & [= <-]).
  pose proof (get_ok_lt _ _ _ Els) as Hlt. apply get_ok in Els.
  destruct (set_nth_total (l_lists lat) (w_end w) (ls ++ [nd]) Hlt) as (l' & E' & Hl & Hn).
  rewrite Es in E'. injection E' as <-. cbn [l_lists].
  destruct (connect_node_cases _ _ _ _ En) as (lb & Elb & EW & _ & HC). exists ls, nd, lb.
  split; auto. split; [rewrite Hn, Nat.eqb_refl; auto|]. split; auto. split; auto. cbn zeta.
  destruct HC as [(HI & HN)|((x & X1 & X2 & X3) & HN)].
  2:{ split; [auto|]. intros H. exfalso. exact (H x X1 X2 X3). }
  split; [intros (x & X1 & X2 & X3); exfalso; exact (HI x X1 X2 X3)|]. intros _.
  pose proof (connect_fold (cost_of view) w lb INT_MAX None) as HF. destruct (fold_left _ _ _) as [tot prev].
  rewrite HN. clear HN En.
  destruct HF as (_ & HA & [(-> & -> & HB)|(pre & l & post & -> & -> & He & -> & _ & HB)]); cbn [ln_prev].
  - exact HB.
  - exists pre, post. split; auto. split; auto. split; auto.
    intros x Hx Hp. apply HA; auto. apply in_or_app. right. now right.
Qed.
Print Assumptions C19_first_inserted_wins.

(** ** A small configuration *)
(** Dictionary: "a" (0), "ab" (1), "b" (2), "bc" (3), "c" (4, never after "b"); other
    characters by the simple OOV provider. *)
Definition toy_lookup (bs : bytes) (i : nat) : gen (Z * nat) :=
  (match skipn i bs with
   | 97 :: 98 :: _ => [(0, S i); (1, S (S i))]
   | 97 :: _ => [(0, S i)]
   | 98 :: 99 :: _ => [(2, S i); (3, S (S i))]
   | 98 :: _ => [(2, S i)]
   | 99 :: _ => [(4, S i)]
   | _ => []
   end, None)%Z.
Definition toy_params (w : Z) : res (Z * Z * Z) :=
  match w with 0 => Ok (1, 1, 10) | 1 => Ok (1, 2, 30) | 2 => Ok (2, 3, 10) | 3 => Ok (2, 2, 25) | 4 => Ok (3, 1, 5)
  | _ => Err EIndex end%Z.
Definition toy_conn (l r : Z) : Z := (if (l =? 3) && (r =? 3) then 32767 else if l =? 0 then 0 else 7)%Z.
(** a matrix of 10 x 10 cells *)
Definition toy_view (l r : Z) : option Z :=
  if ((0 <=? l) && (l <? 10) && (0 <=? r) && (r <? 10))%Z then Some (toy_conn l r) else None.
Definition toy_cfg (ps : list provider) : config :=
  Config toy_view (fun _ => [DEFAULT]) toy_lookup toy_params (fun _ => Err EKey) [] ps [].
Definition toy_simple : provider := Simple (SimpleCfg 9 9 1000 5).

Lemma toy_lookup_range bs i wid e : In (wid, e) (fst (toy_lookup bs i)) -> i < e <= length bs.
Proof.
  unfold toy_lookup. pose proof (skipn_length i bs) as Hl.
  assert (Hne : skipn i bs <> [] -> i < length bs).
  { intros H. destruct (le_lt_dec (length bs) i) as [Hle|]; auto. now rewrite skipn_all2 in H. }
  destruct (skipn i bs) as [|x [|y r]]; cbn [fst length] in *; try contradiction;
    (assert (i < length bs) by (apply Hne; discriminate));
    repeat match goal with |- context [match ?v with _ => _ end] => destruct v; cbn [fst In] in *; try contradiction end;
    intros H'; repeat destruct H' as [H'|H']; try contradiction; injection H' as <- <-; lia.
Qed.

Lemma toy_sane ps : sane (toy_cfg ps).
Proof.
  constructor.
  - discriminate.
  - intros p [].
  - exact toy_lookup_range.
Qed.

Lemma toy_costs : costs_in bits16 bits16 (toy_cfg [toy_simple]).
Proof.
  constructor; unfold bits16.
  - intros a b. unfold cf_conn, cost_of. cbn [toy_cfg cf_view]. unfold toy_view. destruct (_ && _ && _ && _)%Z; [|lia].
    unfold toy_conn. destruct ((a =? 3) && (b =? 3))%Z; [lia|]. destruct (a =? 0)%Z; lia.
  - intros wid l r c. cbn. unfold toy_params.
    repeat match goal with |- context [match ?v with _ => _ end] => destruct v; try discriminate end;
    intros [= _ _ <-]; lia.
  - intros p [<-|[]]. cbn. lia.
Qed.

Lemma toy_ids : ids_inside (toy_cfg [toy_simple]).
Proof.
  exists (fun z => 0 <= z < 10)%Z, (fun z => 0 <= z < 10)%Z. constructor.
  - intros a b Ha Hb. cbn [toy_cfg cf_view]. unfold toy_view.
    replace (_ && _ && _ && _)%Z with true; [discriminate|]. symmetry. rewrite !andb_true_iff, !Z.leb_le, !Z.ltb_lt. lia.
  - lia.
  - intros bs i wid e l r c _. cbn. unfold toy_params.
    repeat match goal with |- context [match ?v with _ => _ end] => destruct v; try discriminate end;
    intros [= <- <- _]; lia.
  - intros p [<-|[]]. cbn. lia.
Qed.

(** "abcx" is analysed as a, bc and the unknown x; a, b, c, x would cost less but
    connects b and c. *)
Example C15_C18_nonvacuous :
  exists it lat' p, run_prepare (toy_cfg [toy_simple]) [97; 98; 99; 120]%Z = Ok it /\
    run_analyse (toy_cfg [toy_simple]) new_lattice it = (lat', Ok p) /\
    map (fun w => (w_begin w, w_end w, w_id w, w_oov w)) p =
      [(0, 1, 0%Z, false); (1, 3, 3%Z, false); (3, 4, 0%Z, true)] /\
    total_cost (toy_cfg [toy_simple]) p = 1056%Z.
Proof.
  eexists _, _, _. split; [vm_compute; reflexivity|]. split; [vm_compute; reflexivity|]. split; reflexivity.
Qed.

(** C16: without the entry "bc" the text "bc" has the single tiling b, c, which is
    inhibited. *)
Definition toy_broken : config :=
  Config toy_view (fun _ => [DEFAULT]) (fun bs i => (filter (fun x => negb (fst x =? 3)%Z) (fst (toy_lookup bs i)), None))
    toy_params (fun _ => Err EKey) [] [toy_simple] [].
Example C16_nonvacuous :
  exists it lat', run_prepare toy_broken [98; 99]%Z = Ok it /\
    run_analyse toy_broken new_lattice it = (lat', Err EAttribute) /\
    forall i, i < 2 -> snd (run_candidates toy_broken it i) = None.
Proof.
  eexists _, _. split; [vm_compute; reflexivity|]. split; [vm_compute; reflexivity|].
  intros [|[|i]] H; [reflexivity|reflexivity|lia].
Qed.

(** C17: with an OOV cost near 2^31 (the field is a C int) the total of a worse
    path becomes negative and it is chosen. *)
Definition toy_huge : config :=
  Config toy_view (fun _ => [DEFAULT])
    (fun bs i => (match skipn i bs with [97; 120] => [(0, S i); (1, S (S i))] | _ => [] end, None)%Z)
    toy_params (fun _ => Err EKey) [] [Simple (SimpleCfg 9 9 2147483647 5)] [].
Theorem C17_overflow_refuted :
  exists it lat' p q, run_prepare toy_huge [97; 120]%Z = Ok it /\
    run_analyse toy_huge new_lattice it = (lat', Ok p) /\
    analysis toy_huge it p /\ analysis toy_huge it q /\
    (total_cost toy_huge q + 2000000000 < total_cost toy_huge p)%Z.
Proof.
  eexists _, _, _, [WNode 0 2 1 2 30 1 false true None].
  split; [vm_compute; reflexivity|]. split; [vm_compute; reflexivity|].
  assert (HC : forall w it, (w_begin w <? length (it_bytes it)) = true -> can_bow it (w_begin w) = Ok true ->
     In w (fst (run_candidates toy_huge it (w_begin w))) -> considered (cfg := toy_huge) (it := it) w).
  { intros w it H1 H2 H3. split; [now apply Nat.ltb_lt|auto]. }
  split; [|split].
  - split; [repeat split; cbn; lia|]. split; [|cbn; repeat split; unfold INHIBITED; lia].
    repeat (apply Forall_cons; [apply HC; [reflexivity|vm_compute; reflexivity|vm_compute; auto]|]); apply Forall_nil.
  - split; [repeat split; cbn; lia|]. split; [|cbn; repeat split; unfold INHIBITED; lia].
    repeat (apply Forall_cons; [apply HC; [reflexivity|vm_compute; reflexivity|vm_compute; auto]|]); apply Forall_nil.
  - vm_compute. reflexivity.
Qed.
Print Assumptions C17_overflow_refuted.

(** ** C79 *)
(** The matrix has a cell for each connection of the analysis that is found. *)
Theorem C79_known_connections cfg lat t it lat' p :
  sane cfg -> usable cfg lat -> t <> [] -> run_prepare cfg t = Ok it ->
  run_analyse cfg lat it = (lat', Ok p) -> has_cells (cf_view cfg) 0 (map to_step p) 0.
Proof.
  intros S U Ht Hp E. destruct (run_prepare_built cfg t it S Ht Hp) as (bd & _ & _ & B).
  exact (analyse_cells S B lat lat' p (usable_clean _ _ S U) E).
Qed.
Print Assumptions C79_known_connections.

(** But the analyses without such words are lost, too: one homograph of "a" has a right id that the matrix does
    not have.  Then "b" is not connected at all, although the other "a" may precede it, and the
    text "ab" is reported to have no analysis. *)
Definition toy_outside : config :=
  Config toy_view (fun _ => [DEFAULT])
    (fun bs i => (match skipn i bs with [97; 98] => [(7, S i); (0, S i)] | [98] => [(2, S i)] | _ => [] end, None)%Z)
    (fun w => if (w =? 7)%Z then Ok (1, 50, 10)%Z else toy_params w) (fun _ => Err EKey) [] [toy_simple] [].
Theorem C79_outside_refuted :
  exists it lat' q, run_prepare toy_outside [97; 98]%Z = Ok it /\
    run_analyse toy_outside new_lattice it = (lat', Err EAttribute) /\
    (forall i, i < 2 -> snd (run_candidates toy_outside it i) = None) /\
    analysis toy_outside it q /\ has_cells (cf_view toy_outside) 0 (map to_step q) 0.
Proof.
  eexists _, _, [WNode 0 1 1 1 10 0 false true None; WNode 1 2 2 3 10 2 false true None].
  split; [vm_compute; reflexivity|]. split; [vm_compute; reflexivity|].
  split; [intros [|[|i]] H; [reflexivity|reflexivity|lia]|].
  assert (HC : forall w it, (w_begin w <? length (it_bytes it)) = true -> can_bow it (w_begin w) = Ok true ->
     In w (fst (run_candidates toy_outside it (w_begin w))) -> considered (cfg := toy_outside) (it := it) w).
  { intros w it H1 H2 H3. split; [now apply Nat.ltb_lt|auto]. }
  split.
  - split; [repeat split; cbn; lia|]. split; [|cbn; repeat split; vm_compute; discriminate].
    repeat (apply Forall_cons; [apply HC; [reflexivity|vm_compute; reflexivity|vm_compute; auto]|]); apply Forall_nil.
  - cbn. repeat split; discriminate.
Qed.
Print Assumptions C79_outside_refuted.

(** C79: the text "aax", with one homograph of "a" that has an unknown left id. *)
Definition toy_left : config :=
  Config toy_view (fun _ => [DEFAULT])
    (fun bs i => (match nth_error bs i with Some 97 => [(7, S i); (0, S i)] | _ => [] end, None)%Z)
    (fun w => if (w =? 7)%Z then Ok (50, 1, -1000)%Z else toy_params w) (fun _ => Err EKey) [] [toy_simple] [].
Example C79_nonvacuous :
  exists it lat' p, run_prepare toy_left [97; 97; 120]%Z = Ok it /\
    run_analyse toy_left new_lattice it = (lat', Ok p) /\
    map (fun w => (w_begin w, w_end w, w_id w, w_oov w)) p =
      [(0, 1, 0%Z, false); (1, 2, 0%Z, false); (2, 3, 0%Z, true)].
Proof.
  eexists _, _, _. split; [vm_compute; reflexivity|]. split; [vm_compute; reflexivity|]. reflexivity.
Qed.
