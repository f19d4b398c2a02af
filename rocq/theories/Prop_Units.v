(** C88: modes A and B with word lists whose units spell their words. *)
From Coq Require Import String Ascii List ZArith Lia Bool Arith Sorting.Sorted Sorting.Permutation.
From Verif Require Import Base Utf8 M_Builder M_CharCategory M_InputText M_InputPlugins M_Lattice M_Oov M_Tokenizer M_NumericParser M_PathRewrite M_Morphemes
  M_Shipped M_Bytes M_DicReader M_DicBuilder M_LexiconSet M_Front M_Resource M_Setup M_Resources M_Command M_Tokenize M_Main S_Command S_Text S_Plugins S_Lattice S_Resource S_Accept S_Tool S_Main S_Units
  P_Builder P_InputText P_Accessors P_Lattice P_Tokenizer P_Path P_Config P_Morphemes P_CharCategory P_Bytes P_DicFormat P_DicWrite P_DicOpen P_DicGrammar P_DicSource P_DicLexicon P_DicFile Prop_Format P_LexiconSet P_Resource
  P_DicToy Prop_Text Prop_Tokenizer Prop_CharCategory Prop_Source Prop_Lexicon Prop_Resource Prop_Shipped P_Words P_Setup P_System Prop_System P_Live Prop_Live P_Made Prop_Made P_AsShipped Prop_AsShipped Prop_Where Prop_Command Prop_Tokenize Prop_Main P_Accept Prop_Accept P_Tool Prop_Tool P_Units P_FileBytes.
Import ListNotations.
Open Scope list_scope.
Open Scope Z_scope.

(** What a path that covers the text gives its morphemes *)
Section covered.
Context {t orig : text} {m2o : list nat} {cats : list (list cat)} {it : input_text}.
Context (B : P_InputText.built t orig m2o cats it) (PM : position_map m2o (length t) (length orig)).
Lemma covered_node q : forall b e i w, covers b (map to_step q) e -> nth_error q i = Some w ->
  (b <= w_begin w /\ w_begin w <= w_end w /\ w_end w <= e /\ (i = 0 -> w_begin w = b) /\
  (forall w', nth_error q (S i) = Some w' -> w_begin w' = w_end w) /\ (S i = length q -> w_end w = e))%nat.
Proof.
  clear. induction q as [|x q IH]; intros b e i w Hc Hi; [destruct i; discriminate|].
  cbn [map covers to_step s_begin s_end] in Hc. destruct Hc as (H1 & H2 & H3). destruct i as [|i].
  - cbn [nth_error] in Hi. assert (x = w) by congruence. subst x. pose proof (covers_le _ _ _ H3). repeat split; try lia.
    + intros w' Hw'. cbn [nth_error] in Hw'. destruct q as [|y q]; [discriminate|]. cbn [nth_error] in Hw'. assert (y = w') by congruence. subst y. cbn [map covers to_step s_begin s_end] in H3. lia.
    + intros Hl. cbn [length] in Hl. destruct q; [|discriminate]. exact H3.
  - cbn [nth_error] in Hi. destruct (IH _ _ _ _ H3 Hi) as (A1 & A2 & A3 & A4 & A5 & A6). repeat split; try lia; [exact A5|]. cbn [length]. intros Hl. apply A6. lia.
Qed.
Lemma covered_list p : covers 0 (map to_step p) (length (it_bytes it)) -> let l := Morphemes (Some it) p in
  ml_str l = Ok orig /\
  forall i, (i < ml_len l)%nat -> exists b e, ml_begin l i = Ok b /\ ml_end l i = Ok e /\ (b <= e <= length orig)%nat /\ ml_surface l i = Ok (slice orig b e) /\
    ((S i < ml_len l)%nat -> ml_begin l (S i) = Ok e) /\ (i = 0%nat -> b = 0%nat) /\ (S i = ml_len l -> e = length orig).
Proof.
  intros Hc l. split; [exact (covers_str B PM p Hc)|]. intros i Hi. subst l. unfold ml_len in *. cbn [ml_path] in *.
  destruct (nth_error p i) as [w|] eqn:Ew; [|apply nth_error_None in Ew; lia].
  destruct (covered_node p 0 (length (it_bytes it)) i w Hc Ew) as (A1 & A2 & A3 & A4 & A5 & A6).
  destruct (ml_surface_spec B PM p i w Ew A2 A3) as (b & e & Eb & Ee & Hbe & Hsf).
  exists b, e. split; auto. split; auto. split; auto. split; auto. unfold ml_begin, ml_end, ml_input in *. cbn [ml_text ml_path bind] in *.
  assert (Hg : get p i = Ok w) by now apply get_ok. rewrite Hg in Eb, Ee. cbn [bind] in Eb, Ee. destruct (original_index_ends B PM) as (E0 & E1). split; [|split].
  - intros Hi'. destruct (nth_error p (S i)) as [w'|] eqn:Ew'; [|apply nth_error_None in Ew'; lia]. assert (Hg' : get p (S i) = Ok w') by now apply get_ok. rewrite Hg'. cbn [bind]. now rewrite (A5 w' eq_refl).
  - intros ->. rewrite (A4 eq_refl), E0 in Eb. congruence.
  - intros Hi'. rewrite (A6 Hi'), E1 in Ee. congruence.
Qed.
End covered.

Section units.
Variable text_file : text -> res text.
Variable binary_file : text -> res bytes.
Variable join : text -> text -> text.
Variable is_absolute : text -> bool.
Variable DEFAULT_RESOURCEDIR : text.
Variable int16 int10 : text -> res Z.
Variable pop : list range -> option (range * list range).
Variable order : list cat -> list cat.
Variable lower : Z -> text.
Variable nfkc : text -> text.
Variable search : bytes -> bytes -> list (Z * nat).
Variable limit : nat.
Variable py_int : text -> res Z.
Variable is_digit : Z -> bool.
Variable trie_array : list (bytes * Z) -> res bytes.
Notation make_dictionary := (make_dictionary text_file binary_file join is_absolute DEFAULT_RESOURCEDIR int16 int10 pop order lower nfkc search limit).
Notation md_settings := (md_settings order lower nfkc search limit).
Notation created := (created order lower nfkc search limit).
Notation built_from := (built_from binary_file join is_absolute search limit py_int is_digit trie_array).
Notation plain_resources := (plain_resources text_file join is_absolute int16).
Notation interpreter := (interpreter pop order lower nfkc).

Section one.
Variables (c : conf) (d : text) (m : M_Setup.made) (g0 : grammar) (sys_id : text -> Z -> text -> res Z) (system : dic) (users : list dic).
Hypothesis BF : built_from c d g0 sys_id system users.
Hypothesis MK : make_dictionary c d = Ok m.
Hypothesis IN : interpreter.
Hypothesis PR : plain_resources c d.
(** The word lists after the escapes are decoded *)
Variables (sys_css : list (list text)) (user_csss : list (list (list text))).
Hypothesis DEC : Forall2 (fun u css => Forall2 (Forall2 (fun c c' => unescape c = Ok c')) (dc_rows u) css) (system :: users) (sys_css :: user_csss).
Hypothesis SID : forall h p r id, sys_id h p r = Ok id -> 0 <= id ->
  exists e, nth_error (s_entries (dc_source system)) (Z.to_nat id) = Some e /\ e_surface e = h /\ (match e_reading e with [] => e_surface e | _ => e_reading e end) = r.
Notation placed T := (P_Units.placed (t := T) system users sys_css user_csss).

Lemma path_of lat t md lat' it p : P_Config.usable (created m) lat -> M_Tokenizer.run (created m) lat t md = (lat', Ok (Some (it, p))) ->
  exists bd pc, builder_wf t bd /\ P_InputText.built (b_mod bd) t (b_m2o bd) (map (cf_category (created m)) (b_mod bd)) it /\ (md_inputs m = [] -> exists cats, P_InputText.built t t (b_m2o (builder_init t)) cats it) /\
    M_Tokenizer.run (created m) lat t ModeC = (lat', Ok (Some (it, pc))) /\ covers 0 (map to_step pc) (length (it_bytes it)) /\
    Forall (placed (b_mod bd)) pc /\ split_path (s_lexinfo (md_settings m)) md pc = Ok p.
Proof.
  intros U E. pose proof (settings_good _ _ _ _ _ _ _ _ _ _ _ _ _ _ _ _ _ _ _ _ _ _ _ BF MK IN PR) as G. pose proof (shipped_sane _ G) as SA.
  destruct (run_inv _ _ _ _ _ _ E) as [(_ & [=])|(it' & lat1 & p0 & p1 & p2 & Ht & Ep & Ea & Ef & El & Es & [= <- <-])].
  destruct (run_prepare_built (created m) t it SA Ht Ep) as (bd & Hwf & Hbd & B).
  destruct (analyse_path SA B lat lat1 p0 (usable_clean _ _ SA U) Ea) as (A1 & _ & _).
  destruct (analyse_lists SA B lat lat1 _ (usable_clean _ _ SA U) Ea) as (LE & _).
  assert (TI : tiles 0 (map to_step p1) (length (it_bytes it))) by (eapply rewrites_tile; [apply shipped_rewrites|exact LE|exact A1|exact Ef]).
  assert (ST : forall q, (q <= length (it_bytes it))%nat -> ((q < length (it_bytes it))%nat -> can_bow it q = Ok true) -> exists a, (a <= length (b_mod bd))%nat /\ q = char_start (b_mod bd) a).
  { intros q Hq Hb. destruct (char_pos_exists B q Hq) as (a & [Ha|(-> & ->)]).
    - destruct (can_bow_spec B q a Ha) as (b & Eb' & Hiff). pose proof (in_char_lt B q a Ha) as Hlt. rewrite (Hb Hlt) in Eb'. injection Eb' as <-. destruct Hiff as (Hiff & _). destruct (Hiff eq_refl) as (-> & _).
      exists a. split; [destruct Ha; lia|reflexivity].
    - exists (length (b_mod bd)). split; [lia|]. symmetry. apply (len_bytes B). }
  assert (F : Forall (placed (b_mod bd)) p1).
  { eapply (path_words (md_settings m) G); eauto; try (intros; left; eauto; fail).
    intros v L H _ B1 B2. right. split; [exact L|].
    destruct (found_entries _ _ _ _ _ _ _ _ _ _ _ _ _ _ _ _ _ _ _ _ _ _ _ BF MK _ _ _ _ H) as (R & k & u & j & x & h & Hk & Hj & Hid & Hh & He).
    destruct (entry_columns _ _ _ _ _ _ _ _ _ _ _ _ _ _ BF _ _ DEC k u j x Hk Hj) as (cs & Rw & _ & _ & _ & Hhead & _). rewrite (Hhead h Hh) in He.
    destruct (ST (w_begin v)) as (a & La & Ea'); [lia|auto|]. destruct (ST (w_end v)) as (b & Lb & Eb'); [lia|exact B2|].
    assert (Hab : (a <= b)%nat). { destruct (Nat.le_gt_cases a b) as [Q|Q]; [exact Q|]. pose proof (char_start_mono (b_mod bd) b a ltac:(lia)). lia. }
    exists cs, a, b. split; [exists k, u, j, x; auto|]. split; [lia|]. split; [exact Ea'|]. split; [exact Eb'|].
    rewrite Ea', Eb' in He. eapply encode_inj; [exact He|]. exact (slice_encode B a b Hab Lb). }
  exists bd, p1. split; [exact Hwf|]. split; [exact B|]. split.
  { intros NI. unfold run_prepare, prepare in Ep. cbn [M_Setup.created shipped cf_inputs cf_category M_Setup.md_settings tokenizer_settings s_inputs] in Ep. rewrite NI in Ep. cbn [map foldM bind] in Ep.
    assert (Hs : scalar_text t). { unfold build in Ep. apply bind_ok in Ep as (bs & Ebs & _). cbn in Ebs. eapply encode_scalar; eauto. }
    destruct (build_spec (s_category (md_settings m)) t (builder_init t) (rewritten_wf _ _ (rw_init t)) Hs (fun c _ => gs_category _ G c)) as (it' & Eb' & B').
    rewrite Ep in Eb'. injection Eb' as <-. cbn [builder_init b_mod] in B'. eauto. }
  split; [|split; [exact (tiles_covers _ _ _ TI)|split; [exact F|exact Es]]].
  unfold M_Tokenizer.run, tokenize. destruct t as [|x t0]; [congruence|].
  change (prepare _ _ (x :: t0)) with (run_prepare (created m) (x :: t0)). rewrite Ep.
  change (analyse _ _ _ _ _ lat it) with (run_analyse (created m) lat it). rewrite Ea, Ef, El. reflexivity.
Qed.

(** C88.  A word of a list is divided into the words that its units name: for the morpheme [i]
    of mode C there are the morphemes of mode A or B from [f i] on.  It stays one morpheme if it
    comes from no list or if its row has less than two units in the column of the mode;
    otherwise there is one morpheme for each unit, and it comes from a row that the unit names. *)
Definition same_morpheme (l : morphemes) (i : nat) (l' : morphemes) (i' : nat) : Prop :=
  ml_word_id l i = ml_word_id l' i' /\ ml_dictionary_id l i = ml_dictionary_id l' i' /\ ml_begin l i = ml_begin l' i' /\ ml_end l i = ml_end l' i'.

Lemma named_base k css t cs : may_name py_int (user_list k) (base_list sys_css k) css t cs -> may_name py_int (negb (k =? 0)%nat) sys_css css t cs.
Proof.
  destruct k as [|k]; cbn [user_list base_list Nat.eqb negb]; [|auto]. intros H. inversion H; subst; [discriminate|eapply MN_number; eauto|eapply MN_row; eauto|].
  eapply MN_word; eauto. left. match goal with X : In _ _ \/ _ |- _ => destruct X as [X|(X & _)]; [exact X|discriminate X] end.
Qed.

Theorem C88_units lat t md lat' latc r rc :
  P_Config.usable (created m) lat -> M_Tokenizer.run (created m) lat t ModeC = (latc, Ok rc) -> M_Tokenizer.run (created m) lat t md = (lat', Ok r) ->
  let lc := morphemes_of rc in let l := morphemes_of r in
  exists f : nat -> nat, f 0%nat = 0%nat /\ f (ml_len lc) = ml_len l /\
    forall i, (i < ml_len lc)%nat ->
      let unchanged := f (S i) = S (f i) /\ same_morpheme l (f i) lc i in
      (mode_column md = None \/ ml_dictionary_id lc i = Ok (-1) -> unchanged) /\
      forall col k css j cs ws, mode_column md = Some col ->
        ml_dictionary_id lc i = Ok (Z.of_nat k) -> ml_word_id lc i = Ok (Z.of_nat k * 2 ^ 28 + Z.of_nat j) ->
        nth_error (sys_css :: user_csss) k = Some css -> nth_error css j = Some cs -> pieces 47 (column cs col) ws ->
        ((length ws < 2)%nat -> unchanged) /\
        ((2 <= length ws)%nat -> f (S i) = (f i + length ws)%nat /\
          forall n u, nth_error ws n = Some u -> exists k' css' j' cs',
            ml_dictionary_id l (f i + n) = Ok (Z.of_nat k') /\ ml_word_id l (f i + n) = Ok (Z.of_nat k' * 2 ^ 28 + Z.of_nat j') /\
            nth_error (sys_css :: user_csss) k' = Some css' /\ nth_error css' j' = Some cs' /\
            may_name py_int (negb (k =? 0)%nat) sys_css css u cs').
Proof.
  intros U EC E. cbn zeta. destruct r as [[it p]|].
  2: { destruct (run_inv _ _ _ _ _ _ E) as [(-> & _)|(it' & ? & ? & ? & ? & _ & _ & _ & _ & _ & _ & [=])]. cbn in EC. injection EC as <- <-. exists (fun _ => 0%nat). split; [reflexivity|]. split; [reflexivity|]. intros i Hi. cbn in Hi. lia. }
  destruct (path_of _ _ _ _ _ _ U E) as (bd & pc & _ & B & _ & EC' & _ & FP & SP). rewrite EC in EC'. assert (rc = Some (it, pc)) by congruence. subst rc. cbn [morphemes_of]. clear EC EC' E.
  assert (Q : exists nss, p = concat nss /\ Forall2 (fun w ns => (mode_column md = None -> ns = [w]) /\ (mode_column md <> None -> split_one (s_lexinfo (md_settings m)) md w = Ok ns)) pc nss).
  { destruct md; cbn [split_path] in SP; [| |injection SP as <-; exists (map (fun w => [w]) pc)].
    1,2: apply bind_ok in SP as (nss & SP & [= <-]); exists nss; split; [reflexivity|]; clear - SP; revert nss SP; induction pc as [|w pc IH]; intros nss SP; cbn [mapM] in SP;
      [injection SP as <-; constructor|]; apply bind_ok in SP as (ns & S1 & SP); apply bind_ok in SP as (nss' & S2 & [= <-]); constructor; [split; [discriminate|intros _; exact S1]|exact (IH _ S2)].
    split; [clear; induction pc; cbn [map concat app]; congruence|]. clear. induction pc as [|w pc IH]; cbn [map]; constructor; [split; [reflexivity|cbn; congruence]|exact IH]. }
  destruct Q as (nss & -> & F). exists (fun i => length (concat (firstn i nss))). split; [reflexivity|].
  assert (LF : length pc = length nss) by (clear - F; induction F; cbn [length]; congruence).
  split; [unfold ml_len; cbn [ml_path]; now rewrite LF, firstn_all|].
  intros i Hi. unfold ml_len in Hi. cbn [ml_path] in Hi. destruct (nth_error pc i) as [w|] eqn:Ew; [|apply nth_error_None in Ew; lia].
  destruct (forall2_at _ _ _ F i w Ew) as (ns & En & NC & NS).
  assert (SF : concat (firstn (S i) nss) = concat (firstn i nss) ++ ns).
  { clear - En. revert nss En. induction i as [|i IH]; intros [|x nss] En; try discriminate; cbn [nth_error] in En; [injection En as ->; cbn; now rewrite app_nil_r|]. cbn [firstn concat]. rewrite <- app_assoc. f_equal. apply IH. exact En. }
  assert (AL : concat nss = concat (firstn i nss) ++ ns ++ concat (skipn (S i) nss)) by (rewrite app_assoc, <- SF, <- concat_app, firstn_skipn; reflexivity).
  assert (GA : forall n v, nth_error ns n = Some v -> get (concat nss) (length (concat (firstn i nss)) + n) = Ok v).
  { intros n v Hv. apply get_ok. rewrite AL, nth_error_app2 by lia. replace (length (concat (firstn i nss)) + n - length (concat (firstn i nss)))%nat with n by lia. rewrite nth_error_app1; [exact Hv|apply nth_error_Some; congruence]. }
  assert (Gw : get pc i = Ok w) by now apply get_ok.
  assert (UN : ns = [w] -> length (concat (firstn (S i) nss)) = S (length (concat (firstn i nss))) /\ same_morpheme (Morphemes (Some it) (concat nss)) (length (concat (firstn i nss))) (Morphemes (Some it) pc) i).
  { intros ->. split; [rewrite SF, app_length; cbn [length]; lia|]. specialize (GA 0%nat w eq_refl). rewrite Nat.add_0_r in GA.
    unfold same_morpheme, ml_word_id, ml_dictionary_id, ml_begin, ml_end, ml_input. cbn [ml_text ml_path bind]. rewrite GA, Gw. auto. }
  assert (KW : node_dictionary_id w = -1 -> mode_column md <> None -> ns = [w]).
  { intros KW HM. specialize (NS HM). rewrite Forall_forall in FP. destruct (FP w (nth_error_In _ _ Ew)) as [(o & pos & _ & D1 & wi & X & _ & WA & WB)|((W1 & W2 & W3) & cs & a & b & (kk & u & j & e & Hk & Hj & Eid & _) & _)].
    - unfold split_one in NS. apply bind_ok in NS as (wi' & Ew' & NS). unfold node_info in Ew'. rewrite D1, X in Ew'. cbn [negb] in Ew'. injection Ew' as <-. rewrite WA, WB in NS. destruct md; cbn in NS; congruence.
    - exfalso. unfold node_dictionary_id in KW. rewrite W2, W3, Eid in KW. cbn [negb] in KW. rewrite Z.shiftr_div_pow2 in KW by lia. assert (0 <= (Z.of_nat kk * 2 ^ 28 + Z.of_nat j) / 2 ^ 28) by (apply Z.div_pos; lia). lia. }
  split.
  { intros [HM|HD]; [apply UN, NC, HM|]. destruct (mode_column md) eqn:HM; [|apply UN, NC; reflexivity]. apply UN, KW; [|discriminate]. unfold ml_dictionary_id in HD. cbn [ml_path] in HD. rewrite Gw in HD. cbn [bind] in HD. congruence. }
  intros col k css j cs ws HM HD HW Hcss Hcs PC. apply pieces_split in PC. specialize (NS ltac:(congruence)).
  unfold ml_dictionary_id in HD. unfold ml_word_id in HW. cbn [ml_path] in HD, HW. rewrite Gw in HD, HW. cbn [bind] in HD, HW.
  assert (HD' : node_dictionary_id w = Z.of_nat k) by congruence. assert (HW' : w_id w = Z.of_nat k * 2 ^ 28 + Z.of_nat j) by congruence. clear HD HW.
  rewrite Forall_forall in FP. destruct (FP w (nth_error_In _ _ Ew)) as [(o & pos & _ & _ & wi & X & _)|((W1 & W2 & W3) & cs0 & a & b & (kk & u & jj & e & Hk & Hj & Eid & (css0 & Hc0 & Hcs0)) & _)].
  { exfalso. unfold node_dictionary_id in HD'. rewrite X in HD'. lia. }
  assert (SZ : forall kk u jj e, nth_error (system :: users) kk = Some u -> nth_error (s_entries (dc_source u)) jj = Some e -> Z.of_nat jj < 2 ^ 28).
  { clear - BF. intros kk u jj e Hk Hj. pose proof (dic_built _ _ _ _ _ _ _ _ (bf_system _ _ _ _ _ _ _ _ _ _ _ _ _ _ BF) (bf_users _ _ _ _ _ _ _ _ _ _ _ _ _ _ BF) kk u Hk) as B'. destruct B' as (_ & _ & _ & _ & _ & _ & _ & _ & _ & _ & SZ).
    assert (jj < length (s_entries (dc_source u)))%nat by (apply nth_error_Some; congruence). lia. }
  assert (DI : forall v kk jj, lexical v -> w_id v = Z.of_nat kk * 2 ^ 28 + Z.of_nat jj -> Z.of_nat jj < 2 ^ 28 -> node_dictionary_id v = Z.of_nat kk).
  { clear. intros v kk jj (_ & V2 & V3) Ev L. unfold node_dictionary_id. rewrite V2, V3, Ev. cbn [negb]. apply (dictionary_id_pack (Z.of_nat kk) (Z.of_nat jj)). lia. }
  assert (kk = k) as -> by (pose proof (DI w kk jj ltac:(repeat split; assumption) Eid (SZ _ _ _ _ Hk Hj)); lia). assert (jj = j) as -> by lia.
  assert (css0 = css) as -> by congruence. assert (cs0 = cs) as -> by congruence.
  destruct (units_named _ _ _ _ _ _ _ _ _ _ _ _ _ _ _ _ _ _ _ _ _ _ _ BF MK _ _ DEC SID k u j e css cs Hk Hj Hcss Hcs) as (wi & Ewi & UU). specialize (UU md col HM). cbn zeta in UU. fold slash in PC. rewrite PC in UU. destruct UU as (U1 & U2).
  unfold split_one in NS. apply bind_ok in NS as (wi' & Ew' & NS). unfold node_info in Ew'. rewrite W2, W3 in Ew'. cbn [negb] in Ew'. rewrite Eid, Ewi in Ew'. assert (wi' = wi) as -> by congruence. clear Ew'. fold (P_Morphemes.units md wi) in NS.
  split.
  - intros L. apply UN. specialize (U1 ltac:(lia)). apply Nat.leb_le in U1. rewrite U1 in NS. congruence.
  - intros L. destruct (U2 L) as (LU & rows & FE & FM). assert (LT : (length (P_Morphemes.units md wi) <=? 1)%nat = false) by (apply Nat.leb_gt; lia). rewrite LT in NS.
    assert (ID : Forall2 (fun y v => w_id v = y /\ lexical v) (P_Morphemes.units md wi) ns) by (eapply nodes_ids; exact NS). assert (LN : length ns = length ws) by (rewrite <- LU; clear - ID; induction ID; cbn [length]; congruence).
    split; [rewrite SF, app_length; lia|]. intros n t0 Hn. destruct (forall2_at _ _ _ FM n t0 Hn) as (cs' & Hr & MN).
    destruct (nth_error (P_Morphemes.units md wi) n) as [y|] eqn:Hy; [|apply nth_error_None in Hy; assert (n < length ws)%nat by (apply nth_error_Some; congruence); lia].
    destruct (forall2_at _ _ _ FE n y Hy) as (cs1 & Hr' & (k' & u' & j' & e' & Hk' & Hj' & -> & (css' & Hc' & Hcs'))). assert (cs1 = cs') as -> by congruence.
    destruct (forall2_at _ _ _ ID n _ Hy) as (v & Hv & Ev & LV). specialize (GA n v Hv).
    exists k', css', j', cs'. unfold ml_dictionary_id, ml_word_id. cbn [ml_path]. rewrite GA. cbn [bind]. rewrite (DI v k' j' LV Ev (SZ _ _ _ _ Hk' Hj')), Ev.
    split; [reflexivity|]. split; [reflexivity|]. split; [exact Hc'|]. split; [exact Hcs'|]. apply named_base. exact MN.
Qed.

(** From here on the units of the words spell them. *)
Hypothesis WS : all_well_split py_int sys_css user_csss.

Lemma pieces_of lat t md lat' it p : P_Config.usable (created m) lat -> M_Tokenizer.run (created m) lat t md = (lat', Ok (Some (it, p))) ->
  exists bd pc nss, builder_wf t bd /\ P_InputText.built (b_mod bd) t (b_m2o bd) (map (cf_category (created m)) (b_mod bd)) it /\ (md_inputs m = [] -> exists cats, P_InputText.built t t (b_m2o (builder_init t)) cats it) /\
    M_Tokenizer.run (created m) lat t ModeC = (lat', Ok (Some (it, pc))) /\ covers 0 (map to_step pc) (length (it_bytes it)) /\ p = concat nss /\
    Forall2 (fun w ns => Forall (placed (b_mod bd)) ns /\ covers (w_begin w) (map to_step ns) (w_end w) /\ ns <> []) pc nss.
Proof.
  intros U E. destruct (path_of _ _ _ _ _ _ U E) as (bd & pc & Hwf & B & NI & EC & C & F & Es).
  destruct (path_placed _ _ _ _ _ _ _ _ _ _ _ _ _ _ _ _ _ _ _ _ _ _ _ BF MK _ _ DEC SID WS B md pc _ _ _ C F Es) as (nss & -> & FN).
  exists bd, pc, nss. auto 10.
Qed.

(** C88.  In every mode the surfaces of the morphemes follow each other from the beginning of
    the text to its end. *)
Theorem C88_surfaces lat t md lat' r :
  P_Config.usable (created m) lat -> M_Tokenizer.run (created m) lat t md = (lat', Ok r) ->
  let l := morphemes_of r in
  ml_str l = Ok t /\
  forall i, (i < ml_len l)%nat -> exists b e, ml_begin l i = Ok b /\ ml_end l i = Ok e /\ (b <= e <= length t)%nat /\ ml_surface l i = Ok (slice t b e) /\
    ((S i < ml_len l)%nat -> ml_begin l (S i) = Ok e) /\ (i = 0%nat -> b = 0%nat) /\ (S i = ml_len l -> e = length t).
Proof.
  intros U E. cbn zeta. destruct r as [[it p]|].
  2: { destruct (run_inv _ _ _ _ _ _ E) as [(-> & _)|(it' & ? & ? & ? & ? & _ & _ & _ & _ & _ & _ & [=])]. split; [reflexivity|]. intros i Hi. cbn in Hi. lia. }
  destruct (pieces_of _ _ _ _ _ _ U E) as (bd & pc & nss & (Ho & PM) & B & _ & _ & C & -> & F). cbn [morphemes_of].
  destruct (concat_covers pc _ nss _ _ C F) as (C' & _). exact (covered_list B PM _ C').
Qed.

(** A morpheme of a dictionary covers the headword (column 0) of its row in the normalised text;
    without input text plugins that is its surface. *)
Theorem C88_headwords lat t md lat' r i k :
  P_Config.usable (created m) lat -> M_Tokenizer.run (created m) lat t md = (lat', Ok r) ->
  let l := morphemes_of r in
  ml_dictionary_id l i = Ok k -> k <> -1 ->
  exists css j cs it a b, 0 <= k /\ nth_error (sys_css :: user_csss) (Z.to_nat k) = Some css /\ nth_error css j = Some cs /\
    ml_word_id l i = Ok (k * 2 ^ 28 + Z.of_nat j) /\
    ml_text l = Some it /\ column cs 0 = slice (it_mod it) a b /\ ml_begin l i = get_original_index it (char_start (it_mod it) a) /\ ml_end l i = get_original_index it (char_start (it_mod it) b) /\
    (md_inputs m = [] -> ml_surface l i = Ok (column cs 0)).
Proof.
  intros U E. cbn zeta. destruct r as [[it p]|]; [|intros H; destruct i; discriminate H].
  destruct (pieces_of _ _ _ _ _ _ U E) as (bd & pc & nss & (Ho & PM) & B & NI & _ & C & -> & F). cbn [morphemes_of].
  destruct (concat_covers pc _ nss _ _ C F) as (C' & FA). unfold ml_dictionary_id, ml_word_id. cbn [ml_path ml_text].
  destruct (get (concat nss) i) as [w|] eqn:Ew; cbn [bind]; [|discriminate]. intros [= <-] NK. pose proof (proj1 (get_ok _ _ _) Ew) as Ew'.
  rewrite Forall_forall in FA. destruct (FA w (nth_error_In _ _ Ew')) as [(o & pos & _ & _ & wi & W & _)|((W1 & W2 & W3) & cs & a & b & (kk & u & j & e & Hk & Hj & Eid & (css & Hc & Hcs)) & Hab & Hb & He & Ec)].
  { unfold node_dictionary_id in NK. rewrite W in NK. congruence. }
  assert (SZ : (Z.of_nat j < 2 ^ 28)).
  { pose proof (dic_built _ _ _ _ _ _ _ _ (bf_system _ _ _ _ _ _ _ _ _ _ _ _ _ _ BF) (bf_users _ _ _ _ _ _ _ _ _ _ _ _ _ _ BF) kk u Hk) as B'. destruct B' as (_ & _ & _ & _ & _ & _ & _ & _ & _ & _ & SZ).
    assert (j < length (s_entries (dc_source u)))%nat by (apply nth_error_Some; congruence). lia. }
  assert (ED : node_dictionary_id w = Z.of_nat kk).
  { unfold node_dictionary_id. rewrite W2, W3, Eid. cbn [negb]. apply (dictionary_id_pack (Z.of_nat kk) (Z.of_nat j)). lia. }
  exists css, j, cs, it, a, b. rewrite ED, Nat2Z.id, Eid, (bt_mod B). split; [lia|]. split; [exact Hc|]. split; [exact Hcs|]. split; [reflexivity|]. split; [reflexivity|]. split; [exact Ec|].
  unfold ml_surface, ml_begin, ml_end, ml_input. cbn [ml_text ml_path bind]. rewrite Ew. cbn [bind]. rewrite Hb, He. split; [reflexivity|]. split; [reflexivity|].
  intros Hni. destruct (NI Hni) as (cats & B0). cbn [builder_init b_m2o] in B0. assert (EM : b_mod bd = t) by (rewrite <- (bt_mod B); exact (bt_mod B0)). rewrite EM in *.
  assert (GI : forall x, (x <= length t)%nat -> get_original_index it (char_start t x) = Ok x).
  { intros x Hx. unfold get_original_index. rewrite get_ok, (off_start B0 x Hx). rewrite (nth_error_nth' _ 0%nat) by (rewrite seq_length; lia). now rewrite seq_nth by lia. }
  rewrite !GI by lia. cbn [bind]. rewrite (bt_orig B0). f_equal. congruence.
Qed.

(** The morphemes of mode A or B divide those of mode C: for each morpheme [i] of mode C there
    are the morphemes from [f i] to [f (S i)], at least one, and they begin and end where it does. *)
Theorem C88_refines lat t md lat' latc r rc :
  P_Config.usable (created m) lat -> M_Tokenizer.run (created m) lat t ModeC = (latc, Ok rc) -> M_Tokenizer.run (created m) lat t md = (lat', Ok r) ->
  let lc := morphemes_of rc in let l := morphemes_of r in
  exists f : nat -> nat, f 0%nat = 0%nat /\ f (ml_len lc) = ml_len l /\
    forall i, (i < ml_len lc)%nat -> (f i < f (S i))%nat /\ ml_begin l (f i) = ml_begin lc i /\ ml_end l (pred (f (S i))) = ml_end lc i.
Proof.
  intros U EC E. cbn zeta. destruct r as [[it p]|].
  2: { destruct (run_inv _ _ _ _ _ _ E) as [(-> & _)|(it' & ? & ? & ? & ? & _ & _ & _ & _ & _ & _ & [=])]. cbn in EC. injection EC as <- <-. exists (fun _ => 0%nat). split; [reflexivity|]. split; [reflexivity|]. intros i Hi. cbn in Hi. lia. }
  destruct (pieces_of _ _ _ _ _ _ U E) as (bd & pc & nss & _ & B & NI & EC' & C & -> & F). rewrite EC in EC'. assert (rc = Some (it, pc)) by congruence. subst rc. cbn [morphemes_of].
  exists (fun i => length (concat (firstn i nss))). split; [reflexivity|].
  assert (LF : length pc = length nss) by (clear - F; induction F; cbn [length]; congruence).
  split; [unfold ml_len; cbn [ml_path]; now rewrite LF, firstn_all|].
  intros i Hi. unfold ml_len in Hi. cbn [ml_path] in Hi. destruct (nth_error pc i) as [w|] eqn:Ew; [|apply nth_error_None in Ew; lia].
  destruct (forall2_at _ _ _ F i w Ew) as (ns & En & _ & Cn & Nn).
  assert (SP : concat (firstn (S i) nss) = concat (firstn i nss) ++ ns).
  { clear - En. revert nss En. induction i as [|i IH]; intros [|x nss] En; try discriminate; cbn [nth_error] in En; [injection En as ->; cbn; now rewrite app_nil_r|]. cbn [firstn concat]. rewrite <- app_assoc. f_equal. apply IH. exact En. }
  assert (AL : concat nss = concat (firstn i nss) ++ ns ++ concat (skipn (S i) nss)) by (rewrite app_assoc, <- SP, <- concat_app, firstn_skipn; reflexivity).
  rewrite SP, app_length. destruct ns as [|v ns]; [congruence|]. clear Nn. split; [cbn [length]; lia|].
  unfold ml_begin, ml_end, ml_input. cbn [ml_text ml_path bind].
  assert (Gw : get pc i = Ok w) by now apply get_ok. rewrite Gw. cbn [bind].
  assert (G1 : get (concat nss) (length (concat (firstn i nss))) = Ok v) by (apply get_ok; rewrite AL, nth_error_app2, Nat.sub_diag by lia; reflexivity).
  assert (G2 : exists z, get (concat nss) (pred (length (concat (firstn i nss)) + length (v :: ns))) = Ok z /\ nth_error (v :: ns) (length ns) = Some z).
  { destruct (nth_error (v :: ns) (length ns)) as [z|] eqn:Ez; [|apply nth_error_None in Ez; cbn [length] in Ez; lia]. exists z. split; [|reflexivity]. apply get_ok. rewrite AL, nth_error_app2 by (cbn [length]; lia).
    rewrite nth_error_app1 by (cbn [length]; lia). rewrite <- Ez. f_equal. cbn [length]. lia. }
  destruct G2 as (z & G2 & Hz). rewrite G1, G2. cbn [bind].
  destruct (covered_node _ _ _ 0 v Cn eq_refl) as (_ & _ & _ & Hv & _). destruct (covered_node _ _ _ (length ns) z Cn Hz) as (_ & _ & _ & _ & _ & Hz').
  rewrite (Hv eq_refl), (Hz' eq_refl). auto.
Qed.

Variable parse : text -> res conf.
Variable installed : text -> option text.
Variable dirname : text -> text.
Variable DEFAULT_SETTINGFILE : text.
Variable mentions : text -> json -> res bool.
Variable str : Z -> text.
Variable version : text.
Notation alone := (alone order lower nfkc search limit).
Notation command_tokenize := (command_tokenize join is_absolute DEFAULT_RESOURCEDIR int16 int10 pop order lower nfkc search limit parse installed dirname DEFAULT_SETTINGFILE mentions str version).
Hypothesis FS : file_system text_file binary_file.
Hypothesis SI : scalar_interpreter lower nfkc.
Hypothesis CP : complete text_file join is_absolute int16 int10 py_int c d g0 system users.
Hypothesis KN : forall b v, given_pos text_file join int10 c d b v -> known system v.

(** Every text is analysed in every mode, and every morpheme has a surface. *)
Theorem C88_total_partial lat t md :
  P_Config.usable (created m) lat -> scalar_text t -> t <> [] ->
  exists it, run_prepare (created m) t = Ok it /\
    (Z.of_nat (length (it_bytes it)) <= 32766 ->
     exists lat' r, M_Tokenizer.run (created m) lat t md = (lat', Ok r) /\ P_Config.usable (created m) lat' /\
       (0 < ml_len (morphemes_of r))%nat /\ ml_str (morphemes_of r) = Ok t /\
       forall i, (i < ml_len (morphemes_of r))%nat -> exists fs, M_Tokenize.get_fields order lower nfkc search limit m (morphemes_of r) i = Ok fs).
Proof.
  intros U S N. destruct (C71_analyses_partial _ _ _ _ _ _ _ _ _ _ _ _ _ _ _ _ _ _ _ _ _ _ _ BF MK IN PR FS SI CP lat t md U S N) as (it & E & H).
  exists it. split; [exact E|]. intros L. destruct (H L) as (lat' & r & ER & U' & P & A). exists lat', r. split; [exact ER|]. split; [exact U'|]. split; [exact P|].
  destruct (C88_surfaces lat t md lat' r U ER) as (X & Y). split; [exact X|]. intros i Hi. destruct (A i Hi) as ((wi & A1) & (o & A2) & _ & A4). destruct (A4 KN) as (pos & A4'). destruct (Y i Hi) as (b & e & _ & _ & _ & A3 & _).
  unfold M_Tokenize.get_fields. rewrite A3. cbn [bind]. rewrite A4'. cbn [bind]. rewrite A1. cbn [bind]. unfold ml_is_oov in *. apply bind_ok in A2 as (w & Ew & A2). unfold ml_dictionary_id. rewrite Ew. cbn [bind]. eauto.
Qed.

(** The tokenize command, in the mode it is given: every input is analysed to its end, and the
    surfaces of a line make up the line. *)
Theorem C88_command_partial st st' stdin dk a o md lines :
  mode_named (ta_mode a) md ->
  ta_version a = false -> M_Tokenize.output_of a = Some o -> ta_ins a <> [] -> ~ In o (ta_ins a) -> ~ In (txt "-") (ta_ins a) ->
  let d1 := put_file dk o [] in
  set_up (fun path => t <- text_on d1 path ;; parse t) installed dirname DEFAULT_SETTINGFILE mentions st (ta_conf a) None (ta_type a) = (st', Ok tt) ->
  st_dict st' = Some c -> st_resource_dir st' = Some d ->
  (forall p, named_binary join is_absolute c d p -> binary_file p = binary_on d1 p) ->
  (forall p, named_text join is_absolute DEFAULT_RESOURCEDIR c d p -> text_file p = text_on d1 p) ->
  lines_of_files dk (ta_ins a) lines ->
  (forall line it, In line lines -> run_prepare (created m) line = Ok it -> Z.of_nat (length (it_bytes it)) <= 32766) ->
  exists d' analyses, command_tokenize st stdin dk a = (d', [], Done) /\
    Forall2 (fun line fs => alone m md line fs /\ concat (map f_surface fs) = line) lines analyses /\
    d' o = Some (logged (report str (ta_all a) analyses)) /\ (forall p, p <> o -> d' p = dk p).
Proof.
  intros MN NV OUT INS AP ND d1 SU SC SR NB NT LF LEN.
  assert (SURF : forall line lat r i, M_Tokenizer.run (created m) new_lattice line md = (lat, Ok r) -> (i < ml_len (morphemes_of r))%nat -> exists s, ml_surface (morphemes_of r) i = Ok s).
  { intros line lat r i E Hi. destruct (C88_surfaces _ _ _ _ _ (us_new _) E) as (_ & X). destruct (X i Hi) as (b & e & _ & _ & _ & Q & _). eauto. }
  destruct (command_total text_file binary_file join is_absolute DEFAULT_RESOURCEDIR int16 int10 pop order lower nfkc search limit py_int is_digit trie_array
    parse installed dirname DEFAULT_SETTINGFILE mentions str version c d m g0 sys_id system users BF MK IN PR FS SI CP KN md SURF st st' stdin dk a o lines NV OUT INS AP ND MN SU SC SR NB NT LF LEN) as (d' & fss & E & AL & DO & OT).
  exists d', fss. split; [exact E|]. split; [|auto]. clear - AL BF MK IN PR DEC SID WS. induction AL as [|line fs lines fss A AL IH]; constructor; [|exact IH]. split; [exact A|].
  destruct A as (lat & r & RN & FD). destruct (C88_surfaces _ _ _ _ _ (us_new _) RN) as (X & _). exact (fields_str _ _ _ _ _ _ _ _ _ _ _ RN FD X).
Qed.
End one.
End units.
Print Assumptions C88_units.
Print Assumptions C88_surfaces.
Print Assumptions C88_headwords.
Print Assumptions C88_refines.
Print Assumptions C88_total_partial.
Print Assumptions C88_command_partial.

(** ** From word lists to analyses with the tool, in any mode *)
Section tool.
Variable join : text -> text -> text.
Variable is_absolute : text -> bool.
Variable DEFAULT_RESOURCEDIR : text.
Variable int16 int10 : text -> res Z.
Variable pop : list range -> option (range * list range).
Variable order : list cat -> list cat.
Variable lower : Z -> text.
Variable nfkc : text -> text.
Variable search : bytes -> bytes -> list (Z * nat).
Variable limit : nat.
Variable parse : text -> res conf.
Variable installed : text -> option text.
Variable dirname : text -> text.
Variable DEFAULT_SETTINGFILE : text.
Variable mentions : text -> json -> res bool.
Variable str : Z -> text.
Variable version : text.
Variable py_int : text -> res Z.
Variable is_digit : Z -> bool.
Variable trie_array : list (bytes * Z) -> res bytes.
Variable locale_decode : bytes -> res text.
Local Notation sudachipy := (main join is_absolute DEFAULT_RESOURCEDIR int16 int10 pop order lower nfkc search limit parse installed dirname DEFAULT_SETTINGFILE mentions str version
  py_int is_digit trie_array locale_decode).
Local Notation decoded := (Forall2 (Forall2 (fun c c' => unescape c = Ok c'))).
Local Notation make_dictionary d := (make_dictionary (text_on d) (binary_on d) join is_absolute DEFAULT_RESOURCEDIR int16 int10 pop order lower nfkc search limit).
Local Notation created := (created order lower nfkc search limit).
Local Notation built_by_tool := (built_by_tool join is_absolute DEFAULT_RESOURCEDIR int16 int10 pop order lower nfkc search limit parse installed dirname DEFAULT_SETTINGFILE mentions str version
  py_int is_digit trie_array locale_decode).
Local Notation user_built_by_tool := (user_built_by_tool join is_absolute DEFAULT_RESOURCEDIR int16 int10 pop order lower nfkc search limit parse installed dirname DEFAULT_SETTINGFILE mentions str version
  py_int is_digit trie_array locale_decode).
Local Notation from_list := (from_list py_int).

(** The dictionaries and settings of C86, of word lists whose units spell their words: a run of
    `sudachipy tokenize` analyses every input in every mode. *)
Theorem C88_tool_partial sys_rows sys_css mx n sys user_rows user_css user_files d c rd st st' stdin now default d0 args os files o lines :
  trie_contract search trie_array ->
  built_by_tool sys_rows mx sys -> Forall2 (user_built_by_tool sys) user_rows user_files ->
  Forall2 (fun rows css => decoded rows css) (sys_rows :: user_rows) (sys_css :: user_css) ->
  Forall (readable_list py_int limit) (sys_css :: user_css) -> Forall (fitting_list py_int n) (sys_css :: user_css) -> fitting_matrix n mx ->
  (forall p, In p unknown_speeches -> exists cs, In cs sys_css /\ speech cs = p) -> (length user_css <= 7)%nat ->
  all_well_split py_int sys_css user_css ->
  as_shipped (text_on d) join is_absolute DEFAULT_RESOURCEDIR int16 int10 c rd ->
  (exists sp, conf_get c (txt "systemDict") = Some (JStr sp) /\ d (place join is_absolute rd sp) = Some sys) ->
  (exists us, (conf_get c (txt "userDict") = None /\ us = [] \/ conf_get c (txt "userDict") = Some (JList (map JStr us))) /\ Forall2 (fun p b => d (place join is_absolute rd p) = Some b) us user_files) ->
  (forall css cs, In css user_css -> In cs css -> py_int (column cs 3) = Ok (-32768) ->
    column cs 4 <> [] /\ scalar_text (column cs 4) /\
    forall m it, make_dictionary d (without_users c) rd = Ok m -> run_prepare (created m) (column cs 4) = Ok it -> Z.of_nat (length (it_bytes it)) <= 32766) ->
  interpreter pop order lower nfkc -> scalar_interpreter lower nfkc ->
  (forall p b, d0 p = Some b -> Forall (fun x => 0 <= x < 256) b) -> d = put_file d0 o [] ->
  tokenize_args args os files -> S_Main.given is_version os = false -> S_Main.given is_debug os = false ->
  last_of S_Main.output_of os = Some o -> o <> [] ->
  files <> [] -> ~ In o files -> ~ In (txt "-") files ->
  set_up (fun path => t <- text_on d path ;; parse t) installed dirname DEFAULT_SETTINGFILE mentions st (last_of setting_of os) None (last_of type_of os) = (st', Ok tt) ->
  st_dict st' = Some c -> st_resource_dir st' = Some rd ->
  lines_of_files d0 files lines ->
  (forall m line it, make_dictionary d c rd = Ok m -> In line lines -> run_prepare (created m) line = Ok it -> Z.of_nat (length (it_bytes it)) <= 32766) ->
  exists d' analyses, sudachipy st stdin now default d0 args = Some (d', [], Done) /\
    d' o = Some (logged (report str (S_Main.given is_all os) analyses)) /\ (forall p, p <> o -> d' p = d0 p) /\
    Forall2 (fun line fs => concat (map f_surface fs) = line /\ Forall (fun f => from_list sys_css user_css f \/ from_none f) fs) lines analyses.
Proof.
  intros CT SYS USR DEC RD FIT MX SP FEW WS SH SF UF CO IN SI BY Ed TA NV NG OUT NE NF AP ND SU SC SR LF LEN.
  eapply analyses_in; eauto; [apply mode_named_of; reflexivity|]. intros m g0 sys_id system users line lat r BF MK PR ER EU SID E.
  assert (DC : Forall2 (fun u css => decoded (dc_rows u) css) (system :: users) (sys_css :: user_css)).
  { rewrite <- ER, <- EU in DEC. clear - DEC. change (dc_rows system :: map dc_rows users) with (map dc_rows (system :: users)) in DEC. revert DEC. generalize (system :: users) as l, (sys_css :: user_css) as l'.
    induction l as [|u l IH]; intros l' F; inversion F; subst; constructor; auto. }
  destruct (C88_surfaces _ _ _ _ _ _ _ _ _ _ _ _ _ _ _ _ _ _ _ _ _ _ _ BF MK IN PR _ _ DC SID WS new_lattice line _ lat r (us_new _) E) as (X & Y).
  split; [exact X|]. intros i Hi. destruct (Y i Hi) as (b & e & _ & _ & _ & Q & _). eauto.
Qed.
End tool.
Print Assumptions C88_tool_partial.

(** ** The hypotheses are met *)
(** The rows that a unit without commas can name, and what the units of a row can spell *)
Definition rows_named (user : bool) (base own : list (list text)) (t : text) : list (list text) :=
  let row l i := match nth_error l i with Some cs => [cs] | None => [] end in
  if hd 0 t =? 85 then match toy_int (tl t) with Ok i => row own (Z.to_nat (i mod 2 ^ 28)) | Err _ => [] end
  else match toy_int t with
       | Ok i => (if user then if i <? 2 ^ 28 then row base (Z.to_nat i) else [] else []) ++ row own (Z.to_nat (i mod 2 ^ 28))
       | Err _ => []
       end.
Fixpoint spellings (user : bool) (base own : list (list text)) (ws : list text) : list text :=
  match ws with
  | [] => [[]]
  | w :: r => flat_map (fun cs => map (app (column cs 0)) (spellings user base own r)) (rows_named user base own w)
  end.
Definition spells (user : bool) (base own : list (list text)) (cs : list text) (i : nat) : bool :=
  let ws := split_on 47 (column cs i) in
  (length ws <? 2)%nat || (forallb (fun w => negb (existsb (Z.eqb 44) w)) ws && forallb (teqb (column cs 0)) (spellings user base own ws)).
Lemma rows_named_all user base own t cs : existsb (Z.eqb 44) t = false -> may_name toy_int user base own t cs -> In cs (rows_named user base own t).
Proof.
  intros NC H. unfold rows_named. destruct H as [t i cs N E -> R H|t i cs N E R H|t i cs E R H|t ws h r cs P L _ _ _ _ _].
  - destruct (Z.eqb_spec (hd 0 t) 85); [congruence|]. rewrite E. apply in_or_app. left. destruct (Z.ltb_spec i (2 ^ 28)); [|lia]. rewrite H. now left.
  - destruct (Z.eqb_spec (hd 0 t) 85); [congruence|]. rewrite E. apply in_or_app. right. rewrite H. now left.
  - cbn [hd tl]. cbn [Z.eqb Pos.eqb]. rewrite E, H. now left.
  - exfalso. assert (P44 := pieces_comma [] _ _ P ltac:(lia)). assert (existsb (Z.eqb 44) t = true) by (apply existsb_exists; exists 44; auto). congruence.
Qed.
Lemma spellings_all user base own ws css : forallb (fun w => negb (existsb (Z.eqb 44) w)) ws = true -> Forall2 (may_name toy_int user base own) ws css ->
  In (concat (map (fun cs => column cs 0) css)) (spellings user base own ws).
Proof.
  intros NC F. revert NC. induction F as [|w cs ws css H F IH]; intros NC; cbn [spellings map concat]; [now left|]. cbn [forallb] in NC. apply andb_true_iff in NC as (N1 & N2). apply negb_true_iff in N1.
  apply in_flat_map. exists cs. split; [exact (rows_named_all _ _ _ _ _ N1 H)|]. apply in_map. exact (IH N2).
Qed.
Lemma spells_well user base own : forallb (fun cs => spells user base own cs 15 && spells user base own cs 16) own = true -> well_split toy_int user base own.
Proof.
  intros H cs i ws css I Hi P L F. rewrite forallb_forall in H. specialize (H cs I). apply andb_true_iff in H as (H1 & H2). assert (S : spells user base own cs i = true) by (destruct Hi as [<-|[<-|[]]]; assumption). clear H1 H2.
  unfold spells in S. rewrite (pieces_split _ _ _ P) in S. apply orb_true_iff in S as [S|S]; [apply Nat.ltb_lt in S; lia|]. apply andb_true_iff in S as (S1 & S2). rewrite forallb_forall in S2.
  specialize (S2 _ (spellings_all _ _ _ _ _ S1 F)). apply teqb_eq in S2. now symmetry.
Qed.

(** The dictionaries of Prop_Lexicon with the first user dictionary only: 東京都 is analysed as
    東京 (units 0/1) and 都 in mode C, as 東, 京 and 都 in mode A; the user word 東京都 has the
    units 2/U0, the second word of the system dictionary and the first of the user dictionary. *)
Definition unit_conf : conf := map (fun kv => if teqb (fst kv) (txt "userDict") then (fst kv, JList [JStr (txt "a.dic")]) else kv) toy_conf.
Definition unit_made : M_Setup.made := match toy_make unit_conf toy_dir with Ok m => m | Err _ => Made toy_set [] [] [] [] end.
Definition unit_created := created (fun l => l) (fun x => [x]) (fun t => t) toy_search 10 unit_made.
Definition unit_users : list dic := firstn 1 toy_users.
Lemma unit_built_from : built_from toy_binary_file toy_join toy_absolute toy_search 10 toy_int toy_digit toy_array unit_conf toy_dir toy_grammar toy_sys_id toy_system unit_users.
Proof.
  destruct toy_built_from as [A1 A2 A3 A4 A5 A6 A7 A8]. constructor.
  - exact A1.
  - exists (txt "system.dic"). split; [reflexivity|reflexivity].
  - exact A3.
  - exact A4.
  - exists [txt "a.dic"]. split; [right; reflexivity|]. constructor; [reflexivity|constructor].
  - inversion A6; subst. constructor; [assumption|constructor].
  - exact A7.
  - intros u i [<-|[<-|[]]] Hi; apply A8; try exact Hi; [now left|right; now left].
Qed.
Lemma unit_is_made : toy_make unit_conf toy_dir = Ok unit_made.
Proof.
  unfold unit_made. destruct (toy_make unit_conf toy_dir) eqn:E; [reflexivity|].
  assert (X : match toy_make unit_conf toy_dir with Ok _ => true | Err _ => false end = true) by (vm_compute; reflexivity). rewrite E in X. discriminate X.
Qed.
Lemma toy_sys_found h p r id : toy_sys_id h p r = Ok id -> 0 <= id ->
  exists e, nth_error (s_entries (dc_source toy_system)) (Z.to_nat id) = Some e /\ e_surface e = h /\ (match e_reading e with [] => e_surface e | _ => e_reading e end) = r.
Proof.
  intros E NN. unfold toy_sys_id in E. destruct (encode h) as [key|] eqn:EK; [|unfold lx_get_word_id in E; rewrite EK in E; discriminate E].
  destruct (built_opens _ _ _ _ toy_contract _ _ (proj1 C38_nonvacuous)) as (SO & dict & g & _ & _ & E0 & _ & LO & LS).
  assert (ED : dict = toy_dictionary) by (rewrite toy_system_file in E0; unfold toy_dictionary; rewrite E0; reflexivity). subst dict.
  destruct (C42_built toy_search 10 toy_int toy_digit toy_array SystemDic toy_system (d_lexicon toy_dictionary) h p r toy_contract (proj1 C38_nonvacuous)) as (w & Ew & W).
  - eexists. split; [exact LO|]. split; [exact LS|apply same_refl].
  - intros i Hi. apply (bf_forms _ _ _ _ _ _ _ _ _ _ _ _ _ _ toy_built_from toy_system i); [now left|exact Hi].
  - eauto.
  - rewrite E in Ew. apply ok_inj in Ew. subst w. destruct W as [(i & e & -> & Hi & M1 & _ & M3)|(-> & _)]; [|lia]. rewrite Nat2Z.id. eauto.
Qed.
Definition surfaces_in md := r <- snd (M_Tokenizer.run unit_created new_lattice [26481; 20140; 37117] md) ;; let l := morphemes_of r in mapM (fun i => s <- ml_surface l i ;; k <- ml_dictionary_id l i ;; Ok (s, k)) (seq 0 (ml_len l)).
Example C88_nonvacuous :
  built_from toy_binary_file toy_join toy_absolute toy_search 10 toy_int toy_digit toy_array unit_conf toy_dir toy_grammar toy_sys_id toy_system unit_users /\
  toy_make unit_conf toy_dir = Ok unit_made /\
  plain_resources toy_text_file toy_join toy_absolute sample_int16 unit_conf toy_dir /\
  Forall2 (fun u css => Forall2 (Forall2 (fun c c' => unescape c = Ok c')) (dc_rows u) css) (toy_system :: unit_users) [toy_rows; user_rows1] /\
  (forall h p r id, toy_sys_id h p r = Ok id -> 0 <= id ->
    exists e, nth_error (s_entries (dc_source toy_system)) (Z.to_nat id) = Some e /\ e_surface e = h /\ (match e_reading e with [] => e_surface e | _ => e_reading e end) = r) /\
  all_well_split toy_int toy_rows [user_rows1] /\
  md_inputs unit_made = [] /\
  surfaces_in ModeC = Ok [([26481; 20140], 0); ([37117], 1)] /\ surfaces_in ModeA = Ok [([26481], 0); ([20140], 0); ([37117], 1)].
Proof.
  split; [exact unit_built_from|]. split; [exact unit_is_made|]. split.
  { destruct toy_plain as [A B]. constructor; [exact A|]. intros o v (objs & E & _). vm_compute in E. discriminate E. }
  split. { constructor; [|constructor; [|constructor]]; apply plain_rows; vm_compute; reflexivity. }
  split; [exact toy_sys_found|]. split. { split; [|constructor; [|constructor]]; apply spells_well; vm_compute; reflexivity. }
  split; [vm_compute; reflexivity|]. split; vm_compute; reflexivity.
Qed.

(** Two runs of the tool; the second analyses in mode A with a word list in which 東京 has the
    units 東 and 京. *)
Definition unit_tokenize : list text := [txt "-r"; txt "/res/conf.json"; txt "-m"; txt "A"; txt "-o"; txt "o"; txt "i"].
Example C88_tool_nonvacuous : exists d b d' analyses,
  toy_sudachipy tool_disk tool_build = Some (d, [], Done) /\ d (txt "/res/system.dic") = Some b /\
  toy_sudachipy d unit_tokenize = Some (d', [], Done) /\ d' (txt "o") = Some (logged (report toy_str false analyses)) /\
  Forall2 (fun line fs => concat (map f_surface fs) = line /\ Forall (fun f => from_list toy_int tool_rows [] f \/ from_none f) fs) tool_lines analyses.
Proof.
  destruct tool_builds as (d & b & E & B & D & T). exists d, b.
  assert (SC : forall t, In t [shipped_char_def; shipped_unk_def; shipped_rewrite_def] -> decode (bytes_of t) = Ok t).
  { assert (SC : forallb (forallb is_scalar) [shipped_char_def; shipped_unk_def; shipped_rewrite_def] = true) by (vm_compute; reflexivity). rewrite forallb_forall in SC. intros t I. exact (scalar_file t (SC t I)). }
  assert (UN : Forall2 (Forall2 (fun c c' => unescape c = Ok c')) tool_rows tool_rows) by (apply plain_rows; vm_compute; reflexivity).
  set (d1 := put_file d (txt "o") []).
  assert (DS : forall p, p <> txt "/res/system.dic" -> p <> txt "o" -> d1 p = tool_disk p) by (intros p N1 N2; exact (tool_same b [] p N1 N2 d D)).
  assert (SY : d1 (txt "/res/system.dic") = Some b) by (unfold d1; rewrite put_other by discriminate; exact B).
  refine (ex_proj _ _ _ _ _ _ E B (C88_tool_partial toy_join toy_absolute (txt "/default") plain_hex plain_decimal pop_first (fun l => l) (fun x => [x]) (fun t => t) toy_search 10 (fun _ => Ok one_conf) (fun _ => None) (fun _ => toy_dir)
    (txt "/default/conf.json") (fun _ _ => Ok false) toy_str (txt "1") toy_int toy_digit toy_array decode tool_rows tool_rows one_matrix 5969 b [] [] [] d1 one_conf toy_dir
    fresh (State true (Some one_conf) (Some (txt "/res/conf.json")) (Some toy_dir)) [] 1600000000 (Err EKey) d unit_tokenize [Setting (txt "/res/conf.json"); Mode S_Main.A; Output (txt "o")] [txt "i"] (txt "o") tool_lines
    toy_contract T (Forall2_nil _) _ _ _ _ _ _ _ _ _ _ _ toy_interpreter toy_scalar _ eq_refl _ eq_refl eq_refl eq_refl _ _ _ _ _ eq_refl eq_refl _ _)).
  - constructor; [exact UN|constructor].
  - constructor; [|constructor]. constructor.
    + repeat (constructor; [constructor; [repeat (constructor; [split; [vm_compute; lia|split; [vm_compute; discriminate|split; [vm_compute; discriminate|vm_compute; intuition discriminate]]]|]); constructor|repeat (constructor; [vm_compute; reflexivity|]); constructor]|]). constructor.
    + intros i Hi. exists 1%nat. split; [lia|]. destruct (nth_error tool_rows i) as [cs|] eqn:En; [|apply nth_error_None in En; lia].
      apply (FE_end _ _ _ cs En). left. apply nth_error_In in En. apply in_app_or in En as [En|[<-|[]]]; [|reflexivity]. apply in_map_iff in En as ((h, q) & <- & I). apply in_combine_r in I. cbn [unknown_speeches In] in I. repeat (destruct I as [<-|I]; [reflexivity|]). destruct I.
    + vm_compute. discriminate.
  - constructor; [|constructor]. constructor.
    + intros cs l r I _ H1 H2. assert (XY : toy_int [49] = Ok l /\ toy_int [49] = Ok r) by (apply in_app_or in I as [I|[<-|[]]]; [apply in_map_iff in I as ((h, q) & <- & _)|]; split; assumption). destruct XY as (H3 & H4). assert (X : Ok 1 = Ok l) by exact H3. assert (Y : Ok 1 = Ok r) by exact H4. apply ok_inj in X, Y. lia.
    + intros cs I _. apply in_app_or in I as [I|[<-|[]]]; [|intros ch [<-|[]]; lia]. apply in_map_iff in I as ((h, q) & <- & I). assert (Eh : forall ch, In ch (match column (toy_row [h] [55] q [h; h] [h] star star star) 12 with [] => column (toy_row [h] [55] q [h; h] [h] star star star) 4 | t => t end) -> ch = h).
      { apply in_combine_r in I. cbn [unknown_speeches In] in I. intros ch. repeat (destruct I as [<-|I]; [intros [<-|[]]; reflexivity|]). destruct I. }
      intros ch Hc. rewrite (Eh ch Hc). apply in_combine_l in I. cbn [In] in I. lia.
  - split; [reflexivity|]. split; [lia|]. split; [constructor; [|constructor]; eexists _, _, _; split; [reflexivity|]; lia|]. exists 7. now left.
  - intros p I. assert (M : map speech tool_words = unknown_speeches) by (vm_compute; reflexivity). rewrite <- M in I. apply in_map_iff in I as (cs & E1 & E2). exists cs. split; [apply in_or_app; now left|exact E1].
  - cbn. lia.
  - split; [apply spells_well; vm_compute; reflexivity|constructor].
  - assert (TO : forall p t, p <> txt "/res/system.dic" -> p <> txt "o" -> tool_disk p = Some (bytes_of t) -> In t [shipped_char_def; shipped_unk_def; shipped_rewrite_def] -> text_on d1 p = Ok t).
    { intros p t N1 N2 E1 I. unfold text_on. rewrite (DS p N1 N2), E1. exact (SC t I). }
    constructor.
    + intros key H. destruct H as [<-|[<-|[<-|[<-|[]]]]]; reflexivity.
    + reflexivity.
    + apply TO; [discriminate|discriminate|reflexivity|now left].
    + apply TO; [discriminate|discriminate|reflexivity|right; now left].
    + apply TO; [discriminate|discriminate|reflexivity|right; right; now left].
    + auto.
    + auto.
  - exists (txt "system.dic"). split; [reflexivity|exact SY].
  - exists []. split; [left; split; reflexivity|constructor].
  - intros css cs [].
  - intros p f H. destruct (list_eq_dec Z.eq_dec p (txt "/res/system.dic")) as [->|N].
    + assert (f = b) by congruence. subst f. destruct (tool_command _ _ _ _ _ _ _ _ _ _ _ _ _ _ _ _ _ _ _ _ _ _ _ _ _ T) as (nw & de & Ef & _). exact (built_bytes _ _ _ _ _ _ _ _ _ toy_bytes Ef).
    + rewrite (D p N) in H. assert (AB : forall t, Forall (fun x => 0 <= x < 256) (bytes_of t)) by (intros t; unfold bytes_of; destruct (encode t) as [e|] eqn:Ee; [exact (ab_encode t e Ee)|constructor]).
      unfold tool_disk in H. repeat match type of H with (if ?c then Some ?t else _) = _ => destruct c; [assert (f = t) as -> by (apply (f_equal (fun o => match o with Some x => x | None => [] end)) in H; exact (eq_sym H)); first [apply AB|constructor]|] end. discriminate H.
  - exists false, [Setting (txt "/res/conf.json"); Mode S_Main.A; Output (txt "o")], []. split; [reflexivity|]. split; [reflexivity|]. split.
    + intros _ n [<-|[<-|[<-|[]]]] H; cbn in H; repeat (destruct H as [H|H]; [discriminate H|]); exact H.
    + split; repeat constructor; apply plain_word; discriminate.
  - discriminate.
  - discriminate.
  - intros [X|[]]; discriminate X.
  - intros [X|[]]; discriminate X.
  - unfold set_up, or_else. cbn [last_of setting_of]. unfold text_on. rewrite DS by discriminate. reflexivity.
  - assert (L : lines_of_files tool_disk [txt "i"] tool_lines).
    { assert (E0 : file_input tool_disk [] [txt "i"] = ([[26481; 20140; 65; 10]; txt "1,234" ++ [20116; 10]; [0x30A2; 0x30A2; 0x30A2; 10]], None)) by (vm_compute; reflexivity). refine (lines_of_input _ _ _ _ _ E0). intros [X|[]]; discriminate X. }
    destruct L as (lss & F & L). exists lss. split; [|exact L]. inversion F as [|p ls ps lss' (x & t & X1 & X2) F']; subst. constructor; [exists x, t; rewrite D by discriminate; auto|]. inversion F'. constructor.
  - intros m line it MK I E1. destruct (make_inv _ _ _ _ _ _ _ _ _ _ _ _ _ _ _ _ MK) as (sf & ufs & g & ins & oovs & paths & CO).
    assert (TR : text_on d1 (toy_join (txt "/default") (txt "rewrite.def")) = Ok shipped_rewrite_def).
    { unfold text_on. rewrite DS by discriminate. change (tool_disk (toy_join (txt "/default") (txt "rewrite.def"))) with (Some (bytes_of shipped_rewrite_def)). cbv iota. apply SC. right; right; now left. }
    destruct (co_inputs _ _ _ _ _ _ _ _ _ _ _ _ _ _ _ _ _ _ _ _ _ _ CO) as (G & F).
    refine (tool_short _ _ _ _ _ _ F TR _ E1). exact (tool_lengths _ _ G I).
Qed.
