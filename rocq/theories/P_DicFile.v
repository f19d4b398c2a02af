(** The header, and a built dictionary as a whole. *)
From Coq Require Import List ZArith Lia Bool Arith Sorted.
From Verif Require Import Base Utf8 M_Builder M_Lattice M_Tokenizer M_Bytes P_Bytes M_DicReader M_DicBuilder P_DicFormat P_DicWrite P_DicOpen
  P_DicGrammar P_DicSource P_DicLexicon.
Import ListNotations.
Open Scope Z_scope.

(** ** The header *)
Lemma encode_cp_no_nul c : is_scalar c = true -> c <> 0 -> Forall (fun x => x <> 0) (encode_cp c).
Proof.
  intros H N. apply is_scalar_range in H. unfold encode_cp.
  assert (M : forall x, 0 <= x mod 64) by (intros; apply Z.mod_pos_bound; lia).
  assert (D : forall y, 0 < y -> 0 <= c / y) by (intros; apply Z.div_pos; lia).
  pose proof (M c). pose proof (M (c / 64)). pose proof (M (c / 4096)).
  pose proof (D 64 ltac:(lia)). pose proof (D 4096 ltac:(lia)). pose proof (D 262144 ltac:(lia)).
  destruct (c <=? 0x7F); [repeat constructor; lia|].
  destruct (c <=? 0x7FF); [repeat constructor; lia|]. destruct (c <=? 0xFFFF); repeat constructor; lia.
Qed.

Lemma encode_no_nul t b : encode t = Ok b -> ~ In 0 t -> Forall (fun x => x <> 0) b.
Proof.
  revert b. induction t as [|c t IH]; intros b H N; cbn [encode] in H.
  - injection H as <-. constructor.
  - destruct (is_scalar c) eqn:E; [|discriminate]. apply bind_ok in H as (r & Hr & [= <-]).
    apply Forall_app. split; [apply encode_cp_no_nul; auto; intros ->; apply N; now left|].
    apply IH; auto. intros X. apply N. now right.
Qed.

Lemma until_nul_ok s : Forall (fun x => x <> 0) s -> forall pre rest n, (length s <= n)%nat ->
  ((length s < n)%nat -> exists r, rest = 0 :: r) ->
  until_nul (pre ++ s ++ rest) (length pre) n = Ok s.
Proof.
  induction 1 as [|x s Hx F IH]; intros pre rest n L R.
  - destruct n as [|n]; [reflexivity|]. destruct (R ltac:(cbn; lia)) as (r & ->). cbn [until_nul]. unfold get.
    rewrite nth_error_app2, Nat.sub_diag by lia. reflexivity.
  - cbn [length] in *. destruct n as [|n]; [lia|]. cbn [until_nul]. unfold get.
    rewrite nth_error_app2, Nat.sub_diag by lia. cbn [nth_error app bind].
    replace (x =? 0) with false by (symmetry; now apply Z.eqb_neq).
    specialize (IH (pre ++ [x]) rest n ltac:(lia) ltac:(intros; apply R; lia)).
    rewrite <- app_assoc, app_length in IH. cbn [app length] in IH. rewrite Nat.add_1_r in IH. now rewrite IH.
Qed.

Lemma header_ok h b : header_to_bytes h = Ok b -> 0 <= h_time h -> ~ In 0 (h_description h) ->
  length b = HEADER_SIZE /\ forall rest, header_from_bytes (b ++ rest) 0 = Ok h.
Proof.
  unfold header_to_bytes. intros H T N. apply bind_ok in H as (v & Hv & H). apply bind_ok in H as (t & Ht & H).
  apply bind_ok in H as (s & Hs & H). destruct (DESCRIPTION_SIZE <? length s)%nat eqn:E; [discriminate|]. apply Nat.ltb_ge in E.
  cbv zeta in H. match type of H with Ok ?x = Ok _ => assert (Eb : b = x) by congruence end. clear H. subst b.
  pose proof (to_bytes_unsigned _ _ _ Hv) as (_ & Uv & Lv & _).
  assert (Ut : unle t = h_time h /\ length t = 8%nat).
  { pose proof (to_bytes_signed 8 _ _ ltac:(lia) Ht) as (-> & _ & L & R). split; auto. rewrite unle_le. apply Z.mod_small.
    change (2 ^ (8 * Z.of_nat 8)) with 18446744073709551616 in *. lia. }
  destruct Ut as [Ut Lt].
  assert (LB : length (v ++ t ++ s) = (16 + length s)%nat) by (rewrite !app_length; lia).
  unfold DESCRIPTION_SIZE in E.
  assert (Z0 : forall n m, skipn n (repeat 0 m) = repeat 0 (m - n)).
  { induction n; intros m; [now rewrite Nat.sub_0_r|]. destruct m; [reflexivity|]. cbn [repeat skipn]. apply IHn. }
  rewrite Z0, LB. split.
  { rewrite app_length, LB, repeat_length. unfold HEADER_SIZE. lia. }
  intros rest. unfold header_from_bytes. change (0 + 16)%nat with 16%nat.
  assert (E16 : slice (((v ++ t ++ s) ++ repeat 0 (HEADER_SIZE - (16 + length s))) ++ rest) 0 16 = v ++ t).
  { unfold slice. cbn [skipn]. rewrite <- !app_assoc, app_assoc. apply firstn_exact. rewrite app_length. lia. }
  rewrite E16. rewrite app_length, Lv, Lt. change (negb (8 + 8 =? 16)%nat) with false. cbv iota.
  replace (((v ++ t ++ s) ++ repeat 0 (HEADER_SIZE - (16 + length s))) ++ rest)
    with ((v ++ t) ++ s ++ (repeat 0 (HEADER_SIZE - (16 + length s)) ++ rest)) by (rewrite <- !app_assoc; reflexivity).
  replace (until_nul _ 16 DESCRIPTION_SIZE) with
    (until_nul ((v ++ t) ++ s ++ (repeat 0 (HEADER_SIZE - (16 + length s)) ++ rest)) (length (v ++ t)) DESCRIPTION_SIZE)
    by (rewrite (app_length v), Lv, Lt; reflexivity).
  rewrite until_nul_ok; [|eapply encode_no_nul; eauto|unfold DESCRIPTION_SIZE; lia|].
  2:{ unfold DESCRIPTION_SIZE, HEADER_SIZE. intros L. destruct (272 - (16 + length s))%nat as [|m] eqn:Em; [lia|]. cbn [repeat app]. eauto. }
  cbn [bind]. rewrite (decode_encode _ _ Hs). cbn [bind]. rewrite firstn_exact, skipn_exact, Uv, Ut by auto. now destruct h.
Qed.

(** ** The whole file *)
Section file.
Variable k : kind.
Variable py_int : text -> res Z.
Variable is_digit : Z -> bool.
Variable search : bytes -> bytes -> list (Z * nat).
Variable trie_array : list (bytes * Z) -> res bytes.
Hypothesis contract : trie_contract search trie_array.

Definition version_of : Z := match k with SystemDic => SYSTEM_DICT_VERSION_2 | UserDic _ _ _ => USER_DICT_VERSION_3 end.
(** The matrix that is written: user dictionaries have none. *)
Definition matrix_written (ms : option matrix_source) : option matrix_source :=
  match k with SystemDic => ms | UserDic _ _ _ => None end.

Lemma read_dictionary_nonempty d : d <> [] -> read_dictionary d =
  (h <- header_from_bytes d 0 ;;
   if negb (is_dictionary (h_version h)) then Err EException
   else
     let '(p, g) := if has_grammar (h_version h)
                    then let '(p, r) := prun d 0 (read_grammar d HEADER_SIZE) in (p, g <- r ;; Ok (Some g))
                    else (0%nat, Ok None) in
     g <- g ;;
     let offset := (HEADER_SIZE + match g with Some g => g_storage g | None => 0 end)%nat in
     lx <- snd (prun d p (read_lexicon d offset (has_synonym_group_ids (h_version h)))) ;;
     Ok (Dictionary g h lx)).
Proof. destruct d; [congruence|reflexivity]. Qed.

Lemma build_command_ok now description rows ms d :
  build_command k py_int is_digit trie_array now description rows ms = Ok d -> 0 <= now -> ~ In 0 description ->
  exists s, build_lexicon k py_int new_source rows = Ok s /\
  (Forall readable_pos (s_table s) -> (forall m, matrix_written ms = Some m -> exists n, has_matrix n m) ->
   exists dict g, read_dictionary d = Ok dict /\ d_header dict = Header version_of now description /\
     d_grammar dict = Some g /\ g_pos g = map (split_on comma) (s_table s) /\
     (matrix_written ms = None -> g_lsize g = 0 /\ g_rsize g = 0) /\
     (forall m n, matrix_written ms = Some m -> has_matrix n m -> matrix_of g n m) /\
     lexicon_of k py_int is_digit search s (d_lexicon dict) /\ lx_syn (d_lexicon dict) = true).
Proof.
  unfold build_command. intros H T N. apply bind_ok in H as (h & Hh & H). apply bind_ok in H as (f & Hf & [= <-]).
  unfold build_dictionary in Hf. apply bind_ok in Hf as (s & Hs & Hf). apply bind_ok in Hf as (f1 & Hg & Hl).
  exists s. split; [exact Hs|]. intros R M.
  pose proof (build_lexicon_ok _ _ _ _ _ (new_source_ok) Hs) as SO.
  fold version_of in Hh. fold (matrix_written ms) in Hg.
  destruct (header_ok _ _ Hh T N) as (Lh & Rh).
  rewrite f_write_end in Hg by reflexivity. cbn [f_data app] in Hg.
  destruct (write_grammar_reads _ _ _ _ Hg R M) as (gb & -> & RG).
  destruct (write_lexicon_reads _ _ _ _ _ contract _ _ _ Hl (so_sorted _ SO)) as (lb & Ed & RL).
  rewrite <- app_assoc in Ed.
  assert (NE : f_data f <> []) by (rewrite Ed; destruct h; [discriminate Lh|discriminate]).
  rewrite read_dictionary_nonempty by exact NE.
  pose proof (Rh (gb ++ lb)) as RH. rewrite <- Ed in RH. rewrite RH. cbn [bind h_version].
  assert (V1 : is_dictionary version_of = true) by (unfold version_of; destruct k; reflexivity).
  assert (V2 : has_grammar version_of = true) by (unfold version_of; destruct k; reflexivity).
  assert (V3 : has_synonym_group_ids version_of = true) by (unfold version_of; destruct k; reflexivity).
  rewrite V1, V2, V3. cbn [negb].
  destruct (RG lb 0%nat ltac:(lia)) as (g & Eg & G1 & G2 & G3 & G4). rewrite Lh in Eg. rewrite <- Ed in Eg. rewrite Eg. cbn [bind].
  rewrite G2. replace (HEADER_SIZE + length gb)%nat with (length (h ++ gb)) by (rewrite app_length; lia).
  destruct (RL 0%nat true ltac:(lia)) as (p' & lx & El & LO & LD & LS). rewrite El. cbn [snd bind].
  exists (Dictionary (Some g) (Header version_of now description) lx), g. cbn [d_header d_grammar d_lexicon]. repeat (split; [auto; fail|]). auto.
Qed.

(** What [read_word_info] gives for an entry *)
Definition info_of (entries : list entry) (i : nat) (wi : word_info) : Prop :=
  exists e ia ib ic t1 t2 t3 t4, nth_error entries i = Some e /\
    parse_splitinfo k py_int is_digit entries t1 (e_a e) = Ok (ia, t2) /\
    parse_splitinfo k py_int is_digit entries t2 (e_b e) = Ok (ib, t3) /\
    parse_splitinfo k py_int is_digit entries t3 (e_c e) = Ok (ic, t4) /\
    wi = entry_info e ia ib ic.

Lemma lexicon_info_file s lx : lexicon_of k py_int is_digit search s lx -> Forall fits (s_entries s) ->
  info_file (lx_data lx) (lx_infos lx) (s_entries s) (info_of (s_entries s)).
Proof.
  intros L F i e Hi. destruct (lo_infos _ _ _ _ _ _ L i e Hi) as (b & t & t' & o & p & H1 & H2 & H3 & H4).
  rewrite Forall_forall in F. pose proof (F e (nth_error_In _ _ Hi)) as Fe.
  destruct (put_word_info_reads _ _ _ _ _ _ _ _ H1 Fe) as (ia & ib & ic & t1 & t2 & t3 & t4 & t5 & t6 & P1 & P2 & P3 & -> & -> & -> & -> & R).
  exists o, p, b, (entry_info e ia ib ic). repeat (split; [auto; fail|]).
  exists e, ia, ib, ic, t, t2, t4, t6. auto 10.
Qed.

Lemma lexicon_word_info s lx limit n i p : lexicon_of k py_int is_digit search s lx -> lx_syn lx = true -> Forall fits (s_entries s) ->
  chain_ends (s_entries s) n i -> (n <= limit)%nat -> (p <= length (lx_data lx))%nat ->
  exists e wi, nth_error (s_entries s) i = Some e /\ info_of (s_entries s) i wi /\
    prun (lx_data lx) p (read_word_info (lx_infos lx) (lx_syn lx) limit (Z.of_nat i)) =
      (p, Ok (set_dictionary_form wi (dictionary_form_of (s_entries s) e))).
Proof.
  intros L S F C Hn Hp. rewrite S.
  eapply read_info_ok; eauto; [now apply lexicon_info_file|].
  intros j e wi Hj (e' & ia & ib & ic & t1 & t2 & t3 & t4 & E' & _ & _ & _ & ->).
  rewrite Hj in E'. injection E' as <-. split; reflexivity.
Qed.
End file.
