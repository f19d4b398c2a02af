(** C21 and C22: every text is analysable; the analysis does not depend on the
    iteration order of category sets. *)
From Coq Require Import List ZArith Lia Bool Arith.
From Verif Require Import Base Utf8 M_Builder M_InputText M_Lattice M_Oov M_Tokenizer S_Text S_Lattice
  P_Builder P_InputText P_Accessors P_Oov P_Lattice P_Tokenizer P_Path P_Config P_Total P_SameCats Prop_Lattice.
Import ListNotations.
Open Scope nat_scope.

(** ** C21 *)
(** A configuration whose last OOV provider is the simple one, without inhibited
    connections and with a cell of the matrix for all words, whose lexicon answers every lookup. *)
Record open_ended (cfg : config) : Prop := {
  oe_last : exists firsts sc, cf_providers cfg = firsts ++ [Simple sc];
  oe_conn : forall a b, cf_conn cfg a b <> INHIBITED;
  oe_ids : ids_inside cfg;
  oe_lookup : forall bs i, snd (cf_lookup cfg bs i) = None;
  oe_words : forall bs i wid e, In (wid, e) (fst (cf_lookup cfg bs i)) ->
    (-2147483648 <= wid <= 2147483647)%Z /\ exists p, cf_params cfg wid = Ok p;
}.

(** What is needed besides: a character of an alphabetic category has no other
    category, and the MeCab-style providers group the alphabetic categories. *)
Record alphabetic_ok (cfg : config) : Prop := {
  ao_single : forall ch a, alphabetic a -> In a (cf_category cfg ch) -> cf_category cfg ch = [a];
  ao_grouped : forall mc, In (MeCab mc) (cf_providers cfg) -> forall a info, alphabetic a ->
    mc_info mc a = Some info -> ci_group info = true;
}.

Lemma allowed_open conn inh q : (forall a b, conn a b <> inh) -> forall right final, allowed conn inh right q final.
Proof. intros H. induction q; intros; cbn [allowed]; auto. Qed.

Theorem C21_total_partial cfg lat t it :
  sane cfg -> costs_in bits16 bits16 cfg -> open_ended cfg -> alphabetic_ok cfg -> usable cfg lat ->
  t <> [] -> run_prepare cfg t = Ok it -> (Z.of_nat (length (it_bytes it)) <= 32766)%Z ->
  (* the path-rewriting plugins raise nothing *)
  (forall lat1 p, run_analyse cfg lat it = (lat1, Ok p) -> exists p', foldM (fun p plugin => plugin it p lat1) p (cf_rewrites cfg) = Ok p') ->
  exists lat' path, run cfg lat t ModeC = (lat', Ok (Some (it, path))).
Proof.
  intros S C O A U Ht Hp Hn Hrw.
  destruct (run_prepare_built cfg t it S Ht Hp) as (bd & Hwf & _ & B).
  destruct (oe_last _ O) as (firsts & sc & Hlast).
  assert (Hcands : forall k, k < length (b_mod bd) -> snd (run_candidates cfg it (char_start (b_mod bd) k)) = None).
  { intros k Hk. apply (candidates_good S B (ao_single _ A) (ao_grouped _ A)
      (fun i => oe_lookup _ O _ i) (fun i wid e => oe_words _ O _ i wid e) sc firsts Hlast k Hk). }
  destruct (run_analyse cfg lat it) as [lat1 r] eqn:E.
  assert (Hx : forall i q, tiles 0 (map to_step q) i -> Forall (considered (cfg := cfg) (it := it)) q -> can_bow it i = Ok true ->
     snd (run_candidates cfg it i) = None).
  { intros i q _ _ Hb. apply (bow_start B) in Hb as (k & Hk & ->). auto. }
  destruct (C16_fails_iff_no_analysis cfg lat t it lat1 r S C (oe_ids _ O) U Ht Hp Hn Hx E) as (_ & Hok).
  assert (Hne : 0 < length (b_mod bd)).
  { destruct Hwf as (Ho & Hl & H0 & Hn' & _). destruct (b_mod bd) as [|c m]; [|cbn; lia].
    cbn [length] in Hn'. rewrite H0 in Hn'. injection Hn' as Hn'. destruct t; [congruence|discriminate]. }
  destruct (tiling_from S B (ao_single _ A) (ao_grouped _ A)
      (fun i => oe_lookup _ O _ i) (fun i wid e => oe_words _ O _ i wid e) sc firsts Hlast 0) as (q & Q1 & Q2).
  { right. destruct (can_bow_spec B 0 0) as (b & Eb & Hb).
    - pose proof (in_char_start (b_mod bd) 0 Hne). now rewrite char_start_0 in H.
    - rewrite Eb. f_equal. apply Hb. split; [now rewrite char_start_0|exact I]. }
  { lia. }
  destruct (proj2 Hok) as (p & ->).
  { exists q. split; auto. split; auto. apply allowed_open. apply (oe_conn _ O). }
  destruct (Hrw lat1 p eq_refl) as (p' & Ep').
  destruct (analyse_shape S B lat lat1 (Ok p) (usable_clean _ _ S U) E) as (Hs & Hz).
  destruct (clear_clean bos_parameter (length (it_bytes it)) lat1 Hs Hz) as (lat2 & Ec & _).
  exists lat2, p'. unfold run, tokenize. destruct t as [|c t0]; [congruence|].
  change (prepare _ _ _) with (run_prepare cfg (c :: t0)). rewrite Hp.
  change (analyse _ _ _ _ _ lat it) with (run_analyse cfg lat it). rewrite E, Ep', Ec. reflexivity.
Qed.
Print Assumptions C21_total_partial.

(** Without these conditions a text may have no analysis: "abc" where a is KANJI, b
    KANJI and ALPHA, c ALPHA.  The group candidate "ab" ends inside the alphabetic
    run "bc", where no word may begin, and keeps the simple provider from offering
    anything. *)
Definition dead_mecab : mecab_cfg :=
  MecabCfg (fun c => match c with KANJI => Some (CatInfo true true 0) | _ => None end)
           (fun c => match c with KANJI => Some [OovEntry 1 1 100 1] | _ => None end).
Definition dead_category (c : Z) : list cat :=
  (if c =? 97 then [KANJI] else if c =? 98 then [KANJI; ALPHA] else [ALPHA])%Z.
Definition dead_cfg : config :=
  Config (fun _ _ => Some 0%Z) dead_category (fun _ _ => ([], None)) (fun _ => Err EIndex) (fun _ => Err EKey) []
    [MeCab dead_mecab; Simple (SimpleCfg 1 1 1000 5)] [].
Theorem C21_dead_end_refuted :
  sane dead_cfg /\ costs_in bits16 bits16 dead_cfg /\ open_ended dead_cfg /\ cf_rewrites dead_cfg = [] /\
  exists it, run_prepare dead_cfg [97; 98; 99]%Z = Ok it /\ snd (run dead_cfg new_lattice [97; 98; 99]%Z ModeC) = Err EAttribute.
Proof.
  split; [|split; [|split; [|split; [reflexivity|]]]].
  - constructor.
    + intros c. cbn. unfold dead_category. destruct (c =? 97)%Z; [discriminate|]. destruct (c =? 98)%Z; discriminate.
    + intros p [].
    + intros bs i wid e [].
  - constructor; unfold bits16.
    + intros a b. cbn. lia.
    + discriminate.
    + intros p [<-|[<-|[]]]; cbn; [|lia].
      intros c oovs o H Ho. destruct c; try discriminate. injection H as <-. destruct Ho as [<-|[]]. cbn. lia.
  - constructor.
    + exists [MeCab dead_mecab]. eexists. reflexivity.
    + intros a b. discriminate.
    + exists (fun _ => True), (fun _ => True). constructor; cbn; [discriminate|auto|contradiction|].
      intros p _. destruct p; cbn; auto.
    + reflexivity.
    + intros bs i wid e [].
  - eexists. split; [vm_compute; reflexivity|]. vm_compute. reflexivity.
Qed.
Print Assumptions C21_dead_end_refuted.

(** The hypotheses of the partial theorem are met by a configuration with both kinds
    of provider, and the analysis mixes their words. *)
Definition live_mecab : mecab_cfg :=
  MecabCfg (fun c => match c with KANJI => Some (CatInfo true false 2) | ALPHA => Some (CatInfo false true 1) | _ => None end)
           (fun c => match c with KANJI => Some [OovEntry 1 1 100 1] | ALPHA => Some [OovEntry 2 2 300 2] | _ => None end).
Definition live_category (c : Z) : list cat :=
  (if c =? 97 then [ALPHA] else if c =? 0x65E5 then [KANJI; KANJINUMERIC] else [DEFAULT])%Z.
Definition live_cfg : config :=
  Config (fun _ _ => Some 3%Z) live_category (fun _ _ => ([], None)) (fun _ => Err EIndex) (fun _ => Err EKey) []
    [MeCab live_mecab; Simple (SimpleCfg 1 1 1000 5)] [].
Example C21_nonvacuous :
  sane live_cfg /\ costs_in bits16 bits16 live_cfg /\ open_ended live_cfg /\ alphabetic_ok live_cfg /\
  exists it lat' path, run_prepare live_cfg [97; 97; 0x65E5; 0x65E5; 98]%Z = Ok it /\
    run live_cfg new_lattice [97; 97; 0x65E5; 0x65E5; 98]%Z ModeC = (lat', Ok (Some (it, path))) /\
    map (fun w => (w_begin w, w_end w)) path = [(0, 2); (2, 8); (8, 9)].
Proof.
  split; [|split; [|split; [|split]]].
  - constructor.
    + intros c. cbn. unfold live_category. destruct (c =? 97)%Z; [discriminate|]. destruct (c =? 0x65E5)%Z; discriminate.
    + intros p [].
    + intros bs i wid e [].
  - constructor; unfold bits16.
    + intros a b. cbn. lia.
    + discriminate.
    + intros p [<-|[<-|[]]]; cbn; [|lia].
      intros c oovs o H Ho. destruct c; try discriminate; injection H as <-; destruct Ho as [<-|[]]; cbn; lia.
  - constructor.
    + exists [MeCab live_mecab]. eexists. reflexivity.
    + intros a b. discriminate.
    + exists (fun _ => True), (fun _ => True). constructor; cbn; [discriminate|auto|contradiction|].
      intros p _. destruct p; cbn; auto.
    + reflexivity.
    + intros bs i wid e [].
  - constructor.
    + intros ch a Ha. cbn. unfold live_category. destruct (ch =? 97)%Z; [intros [<-|[]]; auto|].
      destruct (ch =? 0x65E5)%Z; intros H; destruct Ha as [Ha|[Ha|Ha]]; subst a; cbn in H; intuition discriminate.
    + intros mc [H|[H|[]]]; [|discriminate]. injection H as <-. intros a info Ha Hi. destruct Ha as [Ha|[Ha|Ha]]; subst a; try discriminate.
      injection Hi as <-. reflexivity.
  - eexists _, _, _. split; [vm_compute; reflexivity|]. split; [vm_compute; reflexivity|]. reflexivity.
Qed.

(** ** C22 *)
(** Two enumerations of the same category sets: the same texts are analysable, with
    the same total cost. *)
Theorem C22_same_cost_partial cfg category' lat lat2 t it it' lat' lat2' r r' :
  let cfg' := with_category cfg category' in
  same_sets (cf_category cfg) category' ->
  sane cfg -> costs_in bits16 bits16 cfg -> ids_inside cfg -> usable cfg lat -> usable cfg' lat2 -> t <> [] ->
  run_prepare cfg t = Ok it -> run_prepare cfg' t = Ok it' -> (Z.of_nat (length (it_bytes it)) <= 32766)%Z ->
  (forall i q, tiles 0 (map to_step q) i -> Forall (considered (cfg := cfg) (it := it)) q -> can_bow it i = Ok true ->
     snd (run_candidates cfg it i) = None) ->
  run_analyse cfg lat it = (lat', r) -> run_analyse cfg' lat2 it' = (lat2', r') ->
  match r, r' with
  | Ok p, Ok p' => total_cost cfg p = total_cost cfg p' /\ analysis cfg it p /\ analysis cfg it p'
  | Err e, Err e' => e = e'
  | _, _ => False
  end.
Proof.
  intros cfg' Hsame S C HI U U2 Ht Hp Hp' Hn Hx E E'.
  assert (S' : sane cfg').
  { constructor.
    - intros c H. destruct (cf_category cfg c) as [|x l] eqn:Ec; [now apply (sane_category _ S c)|].
      assert (Hin : In x (category' c)) by (apply Hsame; rewrite Ec; now left). cbn in H. now rewrite H in Hin.
    - apply (sane_inputs _ S).
    - apply (sane_lookup _ S). }
  assert (C' : costs_in bits16 bits16 cfg') by (constructor; apply C).
  assert (HI' : ids_inside cfg') by (destruct HI as (L & R & HI); exists L, R; constructor; apply HI).
  assert (HB : exists bd, built (b_mod bd) t (b_m2o bd) (map (cf_category cfg) (b_mod bd)) it /\
      built (b_mod bd) t (b_m2o bd) (map category' (b_mod bd)) it').
  { clear E E' U U2 Hx. unfold run_prepare, prepare in Hp, Hp'. apply bind_ok in Hp as (b1 & F1 & G1). apply bind_ok in Hp' as (b2 & F2 & G2).
    cbn [cfg' with_category cf_inputs] in F2. rewrite F1 in F2. injection F2 as <-.
    assert (Hbw : builder_wf t b1).
    { apply rewritten_wf. apply (foldM_inv (rewritten t) (fun bd p => p bd) (cf_inputs cfg) (builder_init t) b1); auto.
      - intros p s s' Hin Hs Eq. apply (sane_inputs cfg S p Hin t s s'); auto.
      - constructor. }
    assert (Hs1 : scalar_text (b_mod b1)).
    { unfold build in G1. apply bind_ok in G1 as (bs & Ebs & _). eapply encode_scalar; eauto. }
    destruct (build_spec (cf_category cfg) t b1 Hbw Hs1) as (i1 & F & B1); [intros c _; apply (sane_category _ S)|].
    destruct (build_spec category' t b1 Hbw Hs1) as (i2 & F' & B2); [intros c _; apply (sane_category _ S')|].
    rewrite G1 in F. injection F as <-. cbn in G2. rewrite G2 in F'. injection F' as <-. eauto. }
  destruct HB as (bd & B & B').
  assert (Hcons : forall w, considered (cfg := cfg) (it := it) w <-> considered (cfg := cfg') (it := it') w)
    by (apply (same_considered S B B' Hsame)).
  assert (Hbytes : it_bytes it' = it_bytes it) by (apply (same_bytes B B')).
  assert (HF : forall q, Forall (considered (cfg := cfg) (it := it)) q <-> Forall (considered (cfg := cfg') (it := it')) q).
  { intros q. split; apply Forall_impl; intros w; apply Hcons. }
  assert (Han : forall q, analysis cfg it q <-> analysis cfg' it' q).
  { intros q. unfold analysis. rewrite Hbytes, HF. cbn. tauto. }
  assert (Hx' : forall i q, tiles 0 (map to_step q) i -> Forall (considered (cfg := cfg') (it := it')) q -> can_bow it' i = Ok true ->
     snd (run_candidates cfg' it' i) = None).
  { intros i q T F Hb. pose proof (bow_start B' i Hb) as (k & Hk & ->).
    pose proof (in_char_start _ _ Hk) as Hin. pose proof (in_char_lt B _ _ Hin) as Hlt.
    unfold cfg'. rewrite <- (proj1 (same_candidates S B B' Hsame k Hk)). apply (Hx _ q); auto; [now apply HF|].
    rewrite <- (same_can_bow B B' Hsame) by auto. exact Hb. }
  assert (Hn' : (Z.of_nat (length (it_bytes it')) <= 32766)%Z) by (rewrite Hbytes; auto).
  pose proof (C16_fails_iff_no_analysis cfg lat t it lat' r S C HI U Ht Hp Hn Hx E) as (F1 & F2).
  pose proof (C16_fails_iff_no_analysis cfg' lat2 t it' lat2' r' S' C' HI' U2 Ht Hp' Hn' Hx' E') as (F1' & F2').
  destruct (bits16_sum cfg it _ _ _ _ S B C) as (Mw & Mc).
  destruct (bits16_sum cfg' it' _ _ _ _ S' B' C') as (Mw' & Mc').
  pose proof (analyse_optimal cfg 65536 lat t it lat' r S U Ht Hp Mw Mc ltac:(lia) HI Hx E) as O1.
  pose proof (analyse_optimal cfg' 65536 lat2 t it' lat2' r' S' U2 Ht Hp' Mw' Mc' ltac:(lia) HI' Hx' E') as O2.
  destruct r as [p|e], r' as [p'|e'].
  - destruct O1 as (A1 & O1), O2 as (A2 & O2). apply Han in A2. pose proof (O1 p' A2). apply Han in A1.
    pose proof (O2 p A1). apply Han in A1. split; auto.
    change (total_cost cfg' p) with (total_cost cfg p) in *. change (total_cost cfg' p') with (total_cost cfg p') in *. lia.
  - destruct O1 as (A1 & _), O2 as (_ & O2). apply (O2 p). now apply Han.
  - destruct O2 as (A2 & _), O1 as (_ & O1). apply (O1 p'). now apply Han.
  - destruct O1, O2. congruence.
Qed.
Print Assumptions C22_same_cost_partial.

(** Ties are broken by the iteration order: two categories with entries of the same
    cost and different parts of speech. *)
Definition tie_mecab : mecab_cfg :=
  MecabCfg (fun c => match c with KANJI | SYMBOL => Some (CatInfo true true 0) | _ => None end)
           (fun c => match c with KANJI => Some [OovEntry 1 1 100 1] | SYMBOL => Some [OovEntry 1 1 100 2] | _ => None end).
Definition tie_cfg (category : Z -> list cat) : config :=
  Config (fun _ _ => Some 0%Z) category (fun _ _ => ([], None)) (fun _ => Err EIndex) (fun _ => Err EKey) [] [MeCab tie_mecab] [].
Definition pos_of (w : wnode) : option Z := match w_extra w with Some wi => Some (wi_pos wi) | None => None end.
Theorem C22_tie_refuted :
  let f := fun _ : Z => [KANJI; SYMBOL] in let g := fun _ : Z => [SYMBOL; KANJI] in
  same_sets f g /\ tie_cfg g = with_category (tie_cfg f) g /\
  exists it it' lat lat' p p',
    run (tie_cfg f) new_lattice [0x3007]%Z ModeC = (lat, Ok (Some (it, p))) /\
    run (tie_cfg g) new_lattice [0x3007]%Z ModeC = (lat', Ok (Some (it', p'))) /\
    map pos_of p = [Some 1%Z] /\ map pos_of p' = [Some 2%Z].
Proof.
  cbv zeta. split; [intros c x; cbn; tauto|]. split; [reflexivity|].
  eexists _, _, _, _, _, _. split; [vm_compute; reflexivity|]. split; [vm_compute; reflexivity|]. split; reflexivity.
Qed.
Print Assumptions C22_tie_refuted.

Example C22_nonvacuous :
  same_sets live_category (fun c => rev (live_category c)) /\
  exists it, run_prepare (with_category live_cfg (fun c => rev (live_category c))) [97; 97; 0x65E5; 0x65E5; 98]%Z = Ok it.
Proof. split; [intros c x; apply in_rev|]. eexists. vm_compute. reflexivity. Qed.
