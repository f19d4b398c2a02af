(** C47-C55: the binary dictionary format. *)
From Coq Require Import List ZArith Lia Bool Arith Sorted.
From Verif Require Import Base Utf8 M_Builder M_Lattice M_Tokenizer M_Bytes P_Bytes M_DicReader M_DicBuilder P_DicFormat P_DicWrite P_DicOpen
  P_DicGrammar P_DicSource P_DicLexicon P_DicFile P_DicToy.
Import ListNotations.
Open Scope Z_scope.

(** ** C47 *)
(** A header with a time that is not negative and a description without NUL *)
Theorem C47_header_partial h b :
  header_to_bytes h = Ok b -> 0 <= h_time h -> ~ In 0 (h_description h) ->
  length b = 272%nat /\ header_from_bytes b 0 = Ok h.
Proof.
  intros H T N. destruct (header_ok _ _ H T N) as (L & R). split; [exact L|]. specialize (R []). now rewrite app_nil_r in R.
Qed.
Print Assumptions C47_header_partial.

(** Which headers are accepted; a description that is too long is a ValueError. *)
Theorem C47_accepted h :
  0 <= h_version h < 2 ^ 64 -> -2 ^ 63 <= h_time h < 2 ^ 63 ->
  forall s, encode (h_description h) = Ok s ->
  ((length s <= 256)%nat -> exists b, header_to_bytes h = Ok b) /\ ((256 < length s)%nat -> header_to_bytes h = Err EValue).
Proof.
  intros V T s Hs. unfold header_to_bytes, put_long, to_bytes. change (2 ^ (8 * Z.of_nat 8)) with (2 ^ 64).
  replace ((0 <=? h_version h) && (h_version h <? 2 ^ 64)) with true
    by (symmetry; apply andb_true_iff; split; [apply Z.leb_le|apply Z.ltb_lt]; lia).
  replace ((- 2 ^ 64 <=? 2 * h_time h) && (2 * h_time h <? 2 ^ 64)) with true
    by (symmetry; apply andb_true_iff; split; [apply Z.leb_le|apply Z.ltb_lt]; lia).
  cbn [bind]. rewrite Hs. cbn [bind]. unfold DESCRIPTION_SIZE. split; intros L.
  - replace (256 <? length s)%nat with false by (symmetry; apply Nat.ltb_ge; lia). eauto.
  - replace (256 <? length s)%nat with true by (symmetry; apply Nat.ltb_lt; lia). reflexivity.
Qed.
Print Assumptions C47_accepted.

(** The time is written signed and read unsigned. *)
Theorem C47_negative_time_refuted :
  exists h b h', header_to_bytes h = Ok b /\ header_from_bytes b 0 = Ok h' /\ h_time h = -1 /\ h_time h' = 2 ^ 64 - 1.
Proof.
  exists (Header SYSTEM_DICT_VERSION_2 (-1) []).
  destruct (header_to_bytes (Header SYSTEM_DICT_VERSION_2 (-1) [])) as [b|] eqn:E; [|vm_compute in E; discriminate].
  destruct (header_from_bytes b 0) as [h'|] eqn:E'.
  - exists b, h'. repeat split; auto. vm_compute in E. injection E as <-. vm_compute in E'. injection E' as <-. reflexivity.
  - exfalso. vm_compute in E. injection E as <-. vm_compute in E'. discriminate.
Qed.
Print Assumptions C47_negative_time_refuted.

Example C47_nonvacuous :
  let h := Header USER_DICT_VERSION_3 1600000000 [26481; 97; 131083] in
  0 <= h_time h /\ ~ In 0 (h_description h) /\ exists b, header_to_bytes h = Ok b /\ header_from_bytes b 0 = Ok h.
Proof.
  cbn zeta. split; [cbn; lia|]. split; [cbn; lia|].
  destruct (header_to_bytes _) as [b|] eqn:E; [|vm_compute in E; discriminate]. exists b. split; [reflexivity|].
  vm_compute in E. injection E as <-. vm_compute. reflexivity.
Qed.

(** ** C48 *)
(** [b] stands in the file [d] from [p] on. *)
Definition stands (d : bytes) (p : nat) (b : bytes) : Prop := firstn (length b) (skipn p d) = b /\ (p + length b <= length d)%nat.
Lemma stands_At d p b : stands d p b -> At d p b.
Proof.
  intros [E L]. exists (firstn p d), (skipn (p + length b) d). split; [|rewrite firstn_length; lia].
  rewrite <- (firstn_skipn p d) at 1. f_equal. rewrite <- (firstn_skipn (length b) (skipn p d)). rewrite E. f_equal.
  clear. revert d. induction p; intros d; [reflexivity|]. destruct d; [now rewrite !skipn_nil|]. cbn [skipn Nat.add]. apply IHp.
Qed.

(** Strings of fewer than 32768 UTF-16 units *)
Theorem C48_strings_partial t b d p :
  put_string t = Ok b -> Z.of_nat (length (units t)) < 32768 -> stands d p b ->
  prun d p buffer_to_string = ((p + length b)%nat, Ok t).
Proof. intros H L A. apply put_string_ok in H; [|lia]. apply H. now apply stands_At. Qed.
Print Assumptions C48_strings_partial.

(** Hence every string that passes the builder's check (at most 32767 characters) and has
    only characters of the basic plane *)
Theorem C48_basic_plane_partial t d p :
  Z.of_nat (length t) <= STRING_MAX_LENGTH -> Forall (fun c => is_scalar c = true /\ c < 0x10000) t ->
  exists b, put_string t = Ok b /\ (stands d p b -> prun d p buffer_to_string = ((p + length b)%nat, Ok t)).
Proof.
  intros L F. unfold STRING_MAX_LENGTH in L.
  assert (U : length (units t) = length t).
  { clear L. induction F as [|c t [S C] F IH]; [reflexivity|]. unfold units in *. cbn [map concat length].
    rewrite app_length, IH. unfold units_cp. replace (c <? 0x10000) with true by (symmetry; now apply Z.ltb_lt). reflexivity. }
  destruct (put_length_total (Z.of_nat (length (units t))) ltac:(lia)) as [a Ha].
  destruct (utf16_total t) as [u Hu]; [eapply Forall_impl; [|exact F]; cbn; tauto|].
  exists (a ++ u). assert (P : put_string t = Ok (a ++ u)) by (unfold put_string; rewrite Ha, Hu; reflexivity).
  split; [exact P|]. intros A. apply C48_strings_partial; auto. lia.
Qed.
Print Assumptions C48_basic_plane_partial.

(** 16384 times U+20000 passes the check but is read back as the empty string. *)
Theorem C48_refuted :
  let t := repeat 0x20000 (Z.to_nat 16384) in
  Z.of_nat (length t) <= STRING_MAX_LENGTH /\
  exists b, put_string t = Ok b /\ snd (prun b 0 buffer_to_string) = Ok [].
Proof.
  cbn zeta. set (t := repeat _ _).
  assert (Lt : Z.of_nat (length t) = 16384) by (unfold t; rewrite repeat_length; lia).
  split; [rewrite Lt; unfold STRING_MAX_LENGTH; lia|].
  assert (S : Forall (fun c => is_scalar c = true) t).
  { apply Forall_forall. intros c Hc. apply repeat_spec in Hc. subst. reflexivity. }
  assert (U : Z.of_nat (length (units t)) = 32768).
  { unfold t. assert (X : forall n, length (units (repeat 0x20000 n)) = (2 * n)%nat).
    { induction n; [reflexivity|]. unfold units in *. cbn [repeat map concat]. rewrite app_length, IHn.
      change (length (units_cp 0x20000)) with 2%nat. lia. }
    rewrite X. lia. }
  destruct (utf16_total t S) as [u Hu]. exists ([128; 0] ++ u). split.
  - unfold put_string. rewrite U, Hu. reflexivity.
  - unfold buffer_to_string, buffer_to_string_length, pbyte, pread. reflexivity.
Qed.
Print Assumptions C48_refuted.

Example C48_nonvacuous :
  let t := [26481; 0x20BB7; 97] in
  exists b, put_string t = Ok b /\ Z.of_nat (length (units t)) < 32768 /\ stands ([9; 9] ++ b ++ [9]) 2 b /\ length b = 9%nat.
Proof. eexists. split; [vm_compute; reflexivity|]. split; [cbn; lia|]. split; [|reflexivity]. split; [reflexivity|cbn; lia]. Qed.

(** ** C49 *)
Definition int_range (z : Z) : Prop := -2147483648 <= z < 2147483648.

Lemma put_int_overflow z : ~ int_range z -> put_int z = Err EOverflow.
Proof.
  unfold int_range, put_int, to_bytes. change (2 ^ (8 * Z.of_nat 4)) with 4294967296. intros H.
  destruct (_ && _) eqn:E; [|reflexivity]. exfalso. apply H. apply andb_true_iff in E as [E1 E2]. apply Z.leb_le in E1. apply Z.ltb_lt in E2. lia.
Qed.
Lemma put_short_overflow z : ~ short_range z -> put_short z = Err EOverflow.
Proof.
  unfold short_range, put_short, to_bytes. change (2 ^ (8 * Z.of_nat 2)) with 65536. intros H.
  destruct (_ && _) eqn:E; [|reflexivity]. exfalso. apply H. apply andb_true_iff in E as [E1 E2]. apply Z.leb_le in E1. apply Z.ltb_lt in E2. lia.
Qed.

(** Lists of integers: read back as written, or rejected *)
Theorem C49_int_arrays l :
  (((length l < 256)%nat /\ Forall int_range l) /\
     exists b, put_int_array l = Ok b /\
       forall d p, stands d p b -> prun d p buffer_to_int_array = ((p + length b)%nat, Ok l)) \/
  (~ ((length l < 256)%nat /\ Forall int_range l) /\ put_int_array l = Err EOverflow).
Proof.
  destruct (put_byte (Z.of_nat (length l))) as [a|e] eqn:Ea.
  - pose proof (proj1 (put_byte_ok _ _) Ea) as (Ea' & Ra).
    assert (X : (Forall int_range l /\ exists b, put_all put_int l = Ok b) \/ (~ Forall int_range l /\ put_all put_int l = Err EOverflow)).
    { clear. induction l as [|z l IH]; [left; split; [constructor|eexists; reflexivity]|]. cbn [put_all].
      destruct (Z_le_gt_dec (-2147483648) z) as [H1|H1]; [destruct (Z_lt_ge_dec z 2147483648) as [H2|H2]|].
      - destruct (put_int_total z ltac:(lia)) as [b ->]. cbn [bind]. destruct IH as [(F & b' & ->)|(F & ->)]; cbn [bind].
        + left. split; [constructor; auto; split; lia|eauto].
        + right. split; auto. intros X. inversion X; auto.
      - right. split; [intros X; inversion X as [|? ? Y]; unfold int_range in Y; lia|]. rewrite put_int_overflow; [reflexivity|unfold int_range; lia].
      - right. split; [intros X; inversion X as [|? ? Y]; unfold int_range in Y; lia|]. rewrite put_int_overflow; [reflexivity|unfold int_range; lia]. }
    destruct X as [(F & b & Hb)|(F & Hb)].
    + left. split; [split; [lia|auto]|]. exists (a ++ b).
      assert (P : put_int_array l = Ok (a ++ b)) by (unfold put_int_array; rewrite Ea, Hb; reflexivity).
      split; [exact P|]. intros d p A. apply (put_int_array_ok _ _ P). now apply stands_At.
    + right. split; [tauto|]. unfold put_int_array. rewrite Ea, Hb. reflexivity.
  - right. assert (E : e = EOverflow /\ ~ (length l < 256)%nat).
    { unfold put_byte, to_bytes in Ea. change (2 ^ (8 * Z.of_nat 1)) with 256 in Ea. destruct (_ && _) eqn:E; [discriminate|].
      split; [congruence|]. apply andb_false_iff in E as [E|E]; [apply Z.leb_gt in E|apply Z.ltb_ge in E]; lia. }
    destruct E as [-> E]. split; [tauto|]. unfold put_int_array. rewrite Ea. reflexivity.
Qed.
Print Assumptions C49_int_arrays.

(** The parameters of words: read back as written, or rejected *)
Theorem C49_parameters e :
  (Forall short_range [e_left e; e_right e; e_cost e] /\
     exists b, put_params e = Ok b /\ shorts b = Ok [e_left e; e_right e; e_cost e]) \/
  (~ Forall short_range [e_left e; e_right e; e_cost e] /\ put_params e = Err EOverflow).
Proof.
  assert (D : forall z, short_range z \/ ~ short_range z) by (intros z; unfold short_range; lia).
  unfold put_params.
  destruct (D (e_left e)) as [H1|H1]; [destruct (D (e_right e)) as [H2|H2]; [destruct (D (e_cost e)) as [H3|H3]|]|].
  - left. split; [apply Forall_cons; [exact H1|]; apply Forall_cons; [exact H2|]; apply Forall_cons; [exact H3|constructor]|].
    destruct (put_short_total _ H1) as [a Ha], (put_short_total _ H2) as [b Hb], (put_short_total _ H3) as [c Hc].
    rewrite Ha, Hb, Hc. cbn [bind]. eexists. split; [reflexivity|].
    assert (P : put_params e = Ok (a ++ b ++ c)) by (unfold put_params; rewrite Ha, Hb, Hc; reflexivity).
    destruct (put_params_ok _ _ P) as (_ & _ & S). specialize (S []). rewrite app_nil_r in S. rewrite S. reflexivity.
  - right. split; [intros X; inversion X as [|? ? _ Y]; inversion Y as [|? ? _ Y']; inversion Y'; auto|].
    destruct (put_short_total _ H1) as [a Ha], (put_short_total _ H2) as [b Hb]. rewrite Ha, Hb, (put_short_overflow _ H3). reflexivity.
  - right. split; [intros X; inversion X as [|? ? _ Y]; inversion Y; auto|].
    destruct (put_short_total _ H1) as [a Ha]. rewrite Ha, (put_short_overflow _ H2). reflexivity.
  - right. split; [intros X; inversion X; auto|]. rewrite (put_short_overflow _ H1). reflexivity.
Qed.
Print Assumptions C49_parameters.

Example C49_nonvacuous :
  (exists b, put_int_array [0; -1; 2147483647] = Ok b /\ prun b 0 buffer_to_int_array = (13%nat, Ok [0; -1; 2147483647])) /\
  put_int_array [2147483648] = Err EOverflow /\ put_int_array (repeat 0 256) = Err EOverflow.
Proof. split; [eexists; split; vm_compute; reflexivity|]. split; vm_compute; reflexivity. Qed.

(** ** C50 *)
Section dictionaries.
Variable k : kind.
Variable py_int : text -> res Z.
Variable is_digit : Z -> bool.
Variable search : bytes -> bytes -> list (Z * nat).
Variable trie_array : list (bytes * Z) -> res bytes.

(** The value that goes into the trie for a headword leads to the numbers of exactly the
    entries with that headword, in ascending order; and every headword has such a value. *)
Theorem C50_word_id_table rows s kvs t :
  build_lexicon k py_int new_source rows = Ok s -> wid_table 0 (s_keys s) = Ok (kvs, t) ->
  (forall key off, In (key, off) kvs ->
     exists ws, wid_table_get t off = Ok (map Z.of_nat ws) /\ StronglySorted lt ws /\
       forall i, In i ws <-> exists e h, nth_error (s_entries s) i = Some e /\ e_headword e = Some h /\ encode h = Ok key) /\
  (forall i e h key, nth_error (s_entries s) i = Some e -> e_headword e = Some h -> encode h = Ok key -> exists off, In (key, off) kvs) /\
  NoDup (map fst kvs).
Proof.
  intros H W. pose proof (build_lexicon_ok _ _ _ _ _ new_source_ok H) as O. pose proof (wid_table_ok _ _ _ _ W [] eq_refl) as F. cbn [app] in F.
  assert (N : NoDup (map fst kvs)).
  { pose proof (so_sorted _ O) as S.
    assert (E : map fst kvs = map fst (s_keys s)).
    { clear - F. induction F as [|a b ks vs (Eab & _) F IH]; [reflexivity|]. cbn [map]. now rewrite IH, Eab. }
    rewrite E. clear - S. induction S as [|a l S IH Fa]; cbn [map]; constructor; auto.
    intros X. apply in_map_iff in X as (y & Ey & Hy). rewrite Forall_forall in Fa. apply Fa in Hy. unfold key_lt in Hy.
    rewrite Ey, bytes_lt_irrefl in Hy. discriminate. }
  split; [|split; [|exact N]].
  - intros key off Hin.
    assert (X : exists ws, In (key, ws) (s_keys s) /\ wid_table_get t off = Ok (map Z.of_nat ws)).
    { clear - F Hin. induction F as [|(a, ws) b ks vs (E1 & _ & E2) F IH]; [destruct Hin|]. destruct Hin as [->|Hin].
      - cbn [fst snd] in *. subst. exists ws. split; [now left|auto].
      - destruct (IH Hin) as (ws' & A & B). exists ws'. split; [now right|auto]. }
    destruct X as (ws & Hk & G). exists ws. split; [exact G|].
    pose proof (so_wids _ O) as Ww. rewrite Forall_forall in Ww. destruct (Ww _ Hk) as (As & _). split; [exact As|].
    intros i. rewrite <- (so_listed _ O key i : _ <-> exists e h, nth_error (s_entries s) i = Some e /\ e_headword e = Some h /\ encode h = Ok key).
    split; [intros Hi; exists ws; auto|]. intros (ws' & Hk' & Hi').
    assert (ws' = ws); [|congruence].
    pose proof (so_sorted _ O) as S. clear - S Hk Hk'. induction S as [|a l S IH Fa]; [destruct Hk|]. rewrite Forall_forall in Fa. unfold key_lt in Fa.
    destruct Hk as [->|Hk], Hk' as [E|Hk']; [congruence| | |auto].
    + apply Fa in Hk'. cbn [fst] in Hk'. rewrite bytes_lt_irrefl in Hk'. discriminate.
    + subst a. apply Fa in Hk. cbn [fst] in Hk. rewrite bytes_lt_irrefl in Hk. discriminate.
  - intros i e h key E1 E2 E3. destruct (proj2 (so_listed _ O key i)) as (ws & Hk & _); [exists e, h; auto|].
    clear - F Hk. induction F as [|a (b, v) ks vs (E1 & _) F IH]; [destruct Hk|]. destruct Hk as [->|Hk].
    + cbn [fst] in E1. subst. exists v. now left.
    + destruct (IH Hk) as (off & X). exists off. now right.
Qed.

(** ** C52 *)
(** The offset table lies right behind the parameters, the word infos behind the table: entry
    [i]'s info is where its offset says, and no info begins inside the table. *)
Theorem C52_no_overlap s d f :
  write_lexicon k py_int is_digit trie_array s (File d (length d)) = Ok f ->
  exists before offs pad infos,
    f_data f = before ++ offs ++ pad ++ concat infos /\ length offs = (4 * length (s_entries s))%nat /\
    length infos = length (s_entries s) /\
    forall i e, nth_error (s_entries s) i = Some e ->
    exists b t t' o p, nth_error infos i = Some b /\ put_word_info k py_int is_digit (s_entries s) t e = Ok (b, t') /\
      put_int (Z.of_nat p) = Ok o /\ stands (f_data f) (length before + 4 * i) o /\ stands (f_data f) p b /\
      (length before + length offs <= p)%nat.
Proof.
  intros H. unfold write_lexicon in H.
  apply bind_ok in H as ((kvs & wids) & Hw & H). apply bind_ok in H as (array & Ht & H). apply bind_ok in H as (b1 & Hb1 & H).
  apply bind_ok in H as (b2 & Hb2 & H). apply bind_ok in H as (b3 & Hb3 & H). apply bind_ok in H as (ps & Hps & H).
  rewrite (f_write_end (File d (length d))) in H by reflexivity. cbn [f_data] in H.
  do 4 (rewrite (f_write_end (File _ _)) in H by reflexivity; cbn [f_data] in H).
  destruct (put_all_params _ _ Hps) as (Lps & _).
  match type of H with write_wordinfo _ _ _ _ _ (File ?x _) = _ => set (d' := x) in H end.
  assert (Hn : (length (s_entries s) <= length d')%nat) by (unfold d'; rewrite !app_length; destruct (s_entries s); [cbn; lia|rewrite app_length; lia]).
  destruct (write_wordinfo_spec _ _ _ _ _ _ _ H Hn) as (bs & offs & pad & W & Po & Fd & Fl & _).
  pose proof (put_all_int_nat_length _ _ Po) as Lo. rewrite starts_length, (written_length _ _ _ _ _ _ _ W) in Lo.
  exists d', offs, pad, bs. split; [exact Fd|]. split; [exact Lo|]. split; [apply (written_length _ _ _ _ _ _ _ W)|].
  intros i e Hi. destruct (written_nth _ _ _ _ _ _ _ W _ _ Hi) as (b & t & t' & Hb & Hput).
  destruct (starts_at (4 * length d' + length (s_entries s)) _ _ _ Hb) as (p & pre & post & Hp & Hc & Ep).
  destruct (put_all_at _ 4 _ (fun x b H => proj1 (put_int_ok _ _ H)) _ _ _ Po Hp) as (o & pre' & post' & Ho & Eo & Lo').
  assert (E : s_entries s <> []) by (intros E; rewrite E in Hi; destruct i; discriminate). specialize (Fl E).
  assert (SA : forall q x, At (f_data f) q x -> stands (f_data f) q x) by (intros q x A; split; [now apply At_firstn|now apply At_length]).
  exists b, t, t', o, p. split; [auto|]. split; [auto|]. split; [auto|]. split; [|split].
  - apply SA. rewrite Fd, Eo. exists (d' ++ pre'), (post' ++ pad ++ concat bs). rewrite app_length, Lo', <- !app_assoc. auto.
  - apply SA. rewrite Fd, Hc. exists (d' ++ offs ++ pad ++ pre), post. rewrite <- !app_assoc. split; auto.
    rewrite !app_length in *. lia.
  - rewrite !app_length in Fl. lia.
Qed.

(** ** C53 *)
Definition component_ok (t : text) : Prop :=
  ~ In comma t /\ (length (units t) <= 127)%nat /\ hd 0 t <> 0xFEFF /\ hd 0 t <> 0xFFFE.

(** Parts of speech of six components without commas, of at most 127 units each and not
    beginning with a byte order mark *)
Theorem C53_part_of_speech_table_partial (pos : list (list text)) ms d f rest p :
  Forall (fun l => length l = 6%nat /\ Forall component_ok l) pos ->
  write_grammar (map (join_with comma) pos) ms (File d (length d)) = Ok f ->
  (forall m, ms = Some m -> exists n, has_matrix n m) ->
  (p <= length (f_data f ++ rest))%nat ->
  exists g, prun (f_data f ++ rest) p (read_grammar (f_data f ++ rest) (length d)) = (p, Ok g) /\ g_pos g = pos.
Proof.
  intros F H M Hp.
  assert (S : map (split_on comma) (map (join_with comma) pos) = pos).
  { clear - F. rewrite map_map. induction F as [|l pos (L & C) F IH]; [reflexivity|]. cbn [map]. rewrite IH, split_join; auto.
    - destruct l; discriminate.
    - eapply Forall_impl; [|exact C]. intros t (A & _). exact A. }
  assert (R : Forall readable_pos (map (join_with comma) pos)).
  { clear - F. induction F as [|l pos (L & C) F IH]; cbn [map]; constructor; auto. unfold readable_pos.
    rewrite split_join; [split; [exact L|]| |].
    - eapply Forall_impl; [|exact C]. intros t (_ & A). exact A.
    - destruct l; discriminate.
    - eapply Forall_impl; [|exact C]. intros t (A & _). exact A. }
  destruct (write_grammar_reads _ _ _ _ H R M) as (b & -> & G). cbn [f_data] in *. rewrite <- app_assoc in *.
  destruct (G rest p Hp) as (g & E & P & _). exists g. split; [exact E|]. now rewrite P, S.
Qed.

(** ** C54 *)
(** A square matrix whose last cell is given: each pair has the last cost that the file gives
    for it, pairs that are not given have 0. *)
Theorem C54_matrix_partial table ms n d f rest p :
  Forall readable_pos table -> has_matrix n ms ->
  write_grammar table (Some ms) (File d (length d)) = Ok f -> (p <= length (f_data f ++ rest))%nat ->
  exists g, prun (f_data f ++ rest) p (read_grammar (f_data f ++ rest) (length d)) = (p, Ok g) /\
    g_lsize g = n /\ g_rsize g = n /\
    forall l r, 0 <= l < n -> 0 <= r < n ->
      (forall c, given (ms_lines ms) l r c -> get_connect_cost g l r = Ok c) /\
      (not_given (ms_lines ms) l r -> get_connect_cost g l r = Ok 0).
Proof.
  intros R M H Hp. destruct (write_grammar_reads _ _ _ _ H R) as (b & -> & G); [intros m [= <-]; eauto|].
  cbn [f_data] in *. rewrite <- app_assoc in *. destruct (G rest p Hp) as (g & E & _ & _ & _ & MO).
  exists g. split; [exact E|]. apply (MO ms n eq_refl M).
Qed.

(** ** C55 and C51 *)
Hypothesis contract : trie_contract search trie_array.

(** A dictionary with a readable part-of-speech table and a proper matrix (or none) *)
Theorem C55_opens_partial now description rows ms d :
  build_command k py_int is_digit trie_array now description rows ms = Ok d -> 0 <= now -> ~ In 0 description ->
  exists s, build_lexicon k py_int new_source rows = Ok s /\
  (Forall readable_pos (s_table s) -> (forall m, matrix_written k ms = Some m -> exists n, has_matrix n m) ->
   exists dict g lx,
     (match k with SystemDic => from_system_dictionary d | UserDic _ _ _ => from_user_dictionary d end) = Ok dict /\
     d_header dict = Header (version_of k) now description /\
     d_grammar dict = Some g /\ d_lexicon dict = lx /\
     (* the part-of-speech table *)
     g_pos g = map (split_on comma) (s_table s) /\
     (* the matrix *)
     (forall m n l r c, matrix_written k ms = Some m -> has_matrix n m -> 0 <= l < n -> 0 <= r < n ->
        given (ms_lines m) l r c -> get_connect_cost g l r = Ok c) /\
     (* parameters *)
     lx_size lx = length (s_entries s) /\
     (forall i e, nth_error (s_entries s) i = Some e ->
        lx_left_id lx (Z.of_nat i) = Ok (e_left e) /\ lx_right_id lx (Z.of_nat i) = Ok (e_right e) /\ lx_cost lx (Z.of_nat i) = Ok (e_cost e)) /\
     (* headwords *)
     (forall t off wid e, (off <= length t)%nat ->
        In (wid, e) (fst (lx_lookup search lx t off)) <->
        exists i x h, wid = Z.of_nat i /\ (off <= e <= length t)%nat /\ nth_error (s_entries s) i = Some x /\
          e_headword x = Some h /\ encode h = Ok (slice t off e)) /\
     (* word infos *)
     (forall limit n i, Forall fits (s_entries s) -> chain_ends (s_entries s) n i -> (n <= limit)%nat ->
        exists e wi, nth_error (s_entries s) i = Some e /\ info_of k py_int is_digit (s_entries s) i wi /\
          lx_word_info limit lx (Z.of_nat i) = Ok (set_dictionary_form wi (dictionary_form_of (s_entries s) e)))).
Proof.
  intros H T N. destruct (build_command_ok _ _ _ _ _ contract _ _ _ _ _ H T N) as (s & Hs & R). exists s. split; [exact Hs|].
  intros RP HM. destruct (R RP HM) as (dict & g & E & Eh & Eg & G1 & _ & G3 & LO & LS).
  pose proof (build_lexicon_ok _ _ _ _ _ new_source_ok Hs) as SO.
  exists dict, g, (d_lexicon dict). split.
  { unfold from_system_dictionary, from_user_dictionary. rewrite E. cbn [bind]. rewrite Eh. destruct k; reflexivity. }
  split; [exact Eh|]. split; [exact Eg|]. split; [reflexivity|]. split; [exact G1|]. split.
  { intros m n l r c Em Hm Hl Hr Hc. destruct (G3 m n Em Hm) as (_ & _ & X). destruct (X l r Hl Hr) as [Y _]. auto. }
  split; [apply (lo_size _ _ _ _ _ _ LO)|]. split; [intros i e Hi; eapply lexicon_params; eauto|]. split.
  - intros t off wid e Ho. rewrite (lookup_iff _ _ _ _ _ _ _ _ _ _ LO SO Ho). split.
    + intros (i & -> & He & x & h & A & B & C). exists i, x, h. auto.
    + intros (i & x & h & -> & He & A & B & C). exists i. split; [auto|]. split; [auto|]. exists x, h. auto.
  - intros limit n i F C L. destruct (lexicon_word_info _ _ _ _ _ _ limit n i 0 LO LS F C L ltac:(lia)) as (e & wi & Hi & I & P).
    exists e, wi. split; [exact Hi|]. split; [exact I|]. unfold lx_word_info. rewrite P. reflexivity.
Qed.

(** The word infos in full: each column of entry [i] is what is read back, an empty reading or
    normalised form standing for the surface. *)
Theorem C51_word_infos_partial now description rows ms d s limit n i e :
  build_command k py_int is_digit trie_array now description rows ms = Ok d -> 0 <= now -> ~ In 0 description ->
  build_lexicon k py_int new_source rows = Ok s ->
  Forall readable_pos (s_table s) -> (forall m, matrix_written k ms = Some m -> exists n, has_matrix n m) ->
  Forall (fun e => Z.of_nat (length (units (e_surface e))) < 32768 /\ Z.of_nat (length (units (e_norm e))) < 32768 /\
                   Z.of_nat (length (units (e_reading e))) < 32768) (s_entries s) ->
  nth_error (s_entries s) i = Some e -> chain_ends (s_entries s) n i -> (n <= limit)%nat ->
  exists dict wi t1 t2 t3 t4,
    read_dictionary d = Ok dict /\ lx_word_info limit (d_lexicon dict) (Z.of_nat i) = Ok wi /\
    wi_surface wi = e_surface e /\ wi_length wi = e_head_length e /\ wi_pos wi = e_pos e /\
    wi_norm wi = (match e_norm e with [] => e_surface e | _ => e_norm e end) /\
    wi_reading wi = (match e_reading e with [] => e_surface e | _ => e_reading e end) /\
    wi_dic_id wi = e_dic_id e /\
    (e_dic_id e < 0 -> wi_dic wi = e_surface e) /\
    (forall e', 0 <= e_dic_id e -> nth_error (s_entries s) (Z.to_nat (e_dic_id e)) = Some e' -> wi_dic wi = e_surface e') /\
    parse_splitinfo k py_int is_digit (s_entries s) t1 (e_a e) = Ok (wi_a wi, t2) /\
    parse_splitinfo k py_int is_digit (s_entries s) t2 (e_b e) = Ok (wi_b wi, t3) /\
    parse_splitinfo k py_int is_digit (s_entries s) t3 (e_c e) = Ok (wi_struct wi, t4) /\
    wi_syn wi = e_syn e.
Proof.
  intros H T N Hs RP HM U Hi C L. destruct (build_command_ok _ _ _ _ _ contract _ _ _ _ _ H T N) as (s' & Hs' & R).
  rewrite Hs in Hs'. injection Hs' as <-. destruct (R RP HM) as (dict & g & E & _ & _ & _ & _ & _ & LO & LS).
  pose proof (build_lexicon_ok _ _ _ _ _ new_source_ok Hs) as SO.
  assert (F : Forall fits (s_entries s)).
  { pose proof (so_entries _ SO) as EO. rewrite Forall_forall in *. intros x Hx. destruct (U x Hx) as (U1 & U2 & U3).
    destruct (EO x Hx) as (O1 & O2 & _). repeat split; auto. }
  destruct (lexicon_word_info _ _ _ _ _ _ limit n i 0 LO LS F C L ltac:(lia)) as (e0 & wi & Hi0 & I & P).
  rewrite Hi in Hi0. injection Hi0 as <-.
  destruct I as (e1 & ia & ib & ic & t1 & t2 & t3 & t4 & Hi1 & P1 & P2 & P3 & ->). rewrite Hi in Hi1. injection Hi1 as <-.
  exists dict, (set_dictionary_form (entry_info e ia ib ic) (dictionary_form_of (s_entries s) e)), t1, t2, t3, t4.
  split; [exact E|]. split; [unfold lx_word_info; rewrite P; reflexivity|].
  cbn [set_dictionary_form entry_info wi_surface wi_length wi_pos wi_norm wi_reading wi_dic_id wi_dic wi_a wi_b wi_struct wi_syn].
  repeat (split; [reflexivity|]). split.
  { intros D. unfold dictionary_form_of. replace (e_dic_id e <? 0) with true by (symmetry; now apply Z.ltb_lt). reflexivity. }
  split.
  { intros e' D He'. unfold dictionary_form_of. replace (e_dic_id e <? 0) with false by (symmetry; now apply Z.ltb_ge). now rewrite He'. }
  auto.
Qed.
End dictionaries.
Print Assumptions C50_word_id_table.
Print Assumptions C52_no_overlap.
Print Assumptions C53_part_of_speech_table_partial.
Print Assumptions C54_matrix_partial.
Print Assumptions C55_opens_partial.
Print Assumptions C51_word_infos_partial.

(** ** Where the full statements fail *)
Definition read_table (table : list text) (ms : option matrix_source) : res grammar :=
  f <- write_grammar table ms (File [] 0) ;; snd (prun (f_data f) 0 (read_grammar (f_data f) 0)).

(** A component with a comma: the six components are read back as others. *)
Theorem C53_comma_refuted :
  let pos := [[[97; comma; 98]; star; star; star; star; star]; [[97]; star; star; star; star; star]] in
  forall g, read_table (map (join_with comma) pos) None = Ok g -> g_pos g <> pos.
Proof. cbn zeta. intros g H E. vm_compute in H. injection H as <-. vm_compute in E. discriminate. Qed.
Print Assumptions C53_comma_refuted.

(** A component of 128 units is written with a length of two bytes, of which the reader takes
    one: the table is written but does not come back. *)
Theorem C53_length_refuted :
  let pos := [[repeat 97 128; star; star; star; star; star]] in
  (exists f, write_grammar (map (join_with comma) pos) None (File [] 0) = Ok f) /\
  forall g, read_table (map (join_with comma) pos) None = Ok g -> g_pos g <> pos.
Proof.
  cbn zeta. split.
  - destruct (write_grammar _ None (File [] 0)) as [f|] eqn:E; [eauto|vm_compute in E; discriminate].
  - intros g H E. destruct (read_table _ None) as [g'|] eqn:R; [|discriminate]. injection H as ->.
    vm_compute in R. first [discriminate R|injection R as <-; vm_compute in E; discriminate E].
Qed.
Print Assumptions C53_length_refuted.

(** One left id and two right ids: the cost given for the pair 0 1 cannot be read. *)
Theorem C54_not_square_refuted :
  let ms := MatrixSource [1; 2] [[0; 0; 5]; [0; 1; 7]] in
  given (ms_lines ms) 0 1 7 /\ exists g, read_table [] (Some ms) = Ok g /\ get_connect_cost g 0 1 <> Ok 7.
Proof.
  cbn zeta. split; [exists [[0; 0; 5]], []; split; [reflexivity|intros c []]|].
  destruct (read_table [] _) as [g|] eqn:E; [|vm_compute in E; discriminate]. exists g. split; [reflexivity|].
  vm_compute in E. injection E as <-. vm_compute. discriminate.
Qed.
Print Assumptions C54_not_square_refuted.

(** A matrix whose last cell is not given is written too short: the file can be built, but the
    reader looks for the lexicon six bytes behind the place where it was written. *)
Theorem C55_short_matrix_refuted :
  let ms := Some (MatrixSource [2; 2] [[0; 0; 5]]) in
  exists d f h s g,
    build_command SystemDic toy_int toy_digit toy_array 0 [] toy_rows ms = Ok d /\
    header_to_bytes (Header SYSTEM_DICT_VERSION_2 0 []) = Ok h /\ length h = HEADER_SIZE /\
    build_lexicon SystemDic toy_int new_source toy_rows = Ok s /\
    write_grammar (s_table s) ms (File h (length h)) = Ok f /\ firstn (length (f_data f)) d = f_data f /\
    snd (prun d 0 (read_grammar d HEADER_SIZE)) = Ok g /\ (HEADER_SIZE + g_storage g = length (f_data f) + 6)%nat.
Proof.
  cbn zeta.
  destruct (build_command _ _ _ _ _ _ _ (Some (MatrixSource [2; 2] [[0; 0; 5]]))) as [d|] eqn:E; [|vm_compute in E; discriminate].
  destruct (header_to_bytes (Header SYSTEM_DICT_VERSION_2 0 [])) as [h|] eqn:H; [|vm_compute in H; discriminate].
  destruct (build_lexicon SystemDic toy_int new_source toy_rows) as [s|] eqn:F; [|vm_compute in F; discriminate].
  vm_compute in E. injection E as <-. vm_compute in H. injection H as <-. vm_compute in F. injection F as <-.
  do 5 eexists. repeat (split; [vm_compute; reflexivity|]). vm_compute. reflexivity.
Qed.
Print Assumptions C55_short_matrix_refuted.

(** An empty normalised form is read back as the surface. *)
Theorem C51_empty_form_refuted :
  let rows := [toy_row [26481] [49] P1 [1] [] star star star] in
  exists d dict s e wi,
    build_command SystemDic toy_int toy_digit toy_array 0 [] rows None = Ok d /\ read_dictionary d = Ok dict /\
    build_lexicon SystemDic toy_int new_source rows = Ok s /\ nth_error (s_entries s) 0 = Some e /\
    lx_word_info 5 (d_lexicon dict) 0 = Ok wi /\ e_norm e = [] /\ wi_norm wi = [26481].
Proof.
  cbn zeta.
  destruct (build_command _ _ _ _ _ _ _ _) as [d|] eqn:E; [|vm_compute in E; discriminate].
  destruct (read_dictionary d) as [dict|] eqn:F; [|vm_compute in E; injection E as <-; vm_compute in F; discriminate].
  destruct (build_lexicon _ _ _ _) as [s|] eqn:G; [|vm_compute in G; discriminate].
  destruct (nth_error (s_entries s) 0) as [e|] eqn:H; [|vm_compute in G; injection G as <-; vm_compute in H; discriminate].
  destruct (lx_word_info 5 (d_lexicon dict) 0) as [wi|] eqn:I.
  - exists d, dict, s, e, wi. repeat (split; [solve [auto]|]).
    vm_compute in G. injection G as <-. vm_compute in H. injection H as <-.
    vm_compute in E. injection E as <-. vm_compute in F. injection F as <-. vm_compute in I. injection I as <-. split; reflexivity.
  - exfalso. vm_compute in E. injection E as <-. vm_compute in F. injection F as <-. vm_compute in I. discriminate.
Qed.
Print Assumptions C51_empty_form_refuted.

(** ** The hypotheses are met: a dictionary of three words *)
Definition toy_source : source := match build_lexicon SystemDic toy_int new_source toy_rows with Ok s => s | Err _ => new_source end.
Definition toy_bytes : bytes := match toy_file with Ok d => d | Err _ => [] end.

Example C55_nonvacuous :
  build_command SystemDic toy_int toy_digit toy_array 1600000000 [116; 111; 121] toy_rows (Some toy_matrix) = Ok toy_bytes /\
  build_lexicon SystemDic toy_int new_source toy_rows = Ok toy_source /\
  length (s_entries toy_source) = 3%nat /\ length (s_table toy_source) = 2%nat /\ Forall readable_pos (s_table toy_source) /\
  has_matrix 2 toy_matrix /\ given (ms_lines toy_matrix) 0 1 (-4) /\
  trie_contract toy_search toy_array /\ Forall fits (s_entries toy_source) /\ chain_ends (s_entries toy_source) 2 1.
Proof.
  split; [vm_compute; reflexivity|]. split; [vm_compute; reflexivity|]. split; [vm_compute; reflexivity|].
  split; [vm_compute; reflexivity|]. split.
  { vm_compute s_table. repeat constructor; vm_compute; (reflexivity || lia || discriminate). }
  split. { split; [reflexivity|]. split; [lia|]. split; [|exists 7; cbn; auto].
    repeat constructor; cbn [toy_matrix ms_lines]; do 3 eexists; (split; [reflexivity|lia]). }
  split. { exists [[0; 0; 5]; [0; 1; -3]; [1; 1; 7]], []. split; [reflexivity|intros c []]. }
  split; [exact toy_contract|]. split.
  { vm_compute s_entries. repeat constructor; vm_compute; (reflexivity || discriminate). }
  eapply CE_step with (j := 0%nat); [vm_compute; reflexivity|vm_compute; reflexivity|lia|].
  eapply CE_end; [vm_compute; reflexivity|]. left. vm_compute. reflexivity.
Qed.

(** What the theorems say of it, computed: cost of 0 1, parameters, words at the start of
    東京, dictionary form of 京, splits of 東京 *)
Example C55_toy_opens :
  (dict <- from_system_dictionary toy_bytes ;; g <- match d_grammar dict with Some g => Ok g | None => Err EValue end ;;
   c <- get_connect_cost g 0 1 ;; p <- lx_cost (d_lexicon dict) 1 ;; wi <- lx_word_info 5 (d_lexicon dict) 1 ;;
   wi2 <- lx_word_info 5 (d_lexicon dict) 2 ;; t <- encode [26481; 20140] ;;
   Ok (g_pos g, c, p, wi_dic wi, wi_norm wi, wi_a wi2, lx_lookup toy_search (d_lexicon dict) t 0))
  = Ok ([P1; P2], -4, -5, [26481], [2; 3], [0; 1], ([(0, 3%nat); (2, 6%nat)], None)).
Proof. vm_compute. reflexivity. Qed.

Example C50_nonvacuous :
  exists kvs t, wid_table 0 (s_keys toy_source) = Ok (kvs, t) /\ length kvs = 3%nat /\ map (fun kv => wid_table_get t (snd kv)) kvs = [Ok [1]; Ok [0]; Ok [2]].
Proof.
  destruct (wid_table 0 (s_keys toy_source)) as [(kvs, t)|] eqn:E; [|vm_compute in E; discriminate].
  exists kvs, t. split; [reflexivity|]. vm_compute in E. injection E as <- <-. vm_compute. auto.
Qed.

Example C52_nonvacuous : exists f, write_lexicon SystemDic toy_int toy_digit toy_array toy_source (File (repeat 0 5) 5) = Ok f.
Proof. destruct (write_lexicon _ _ _ _ _ _) as [f|] eqn:E; [eauto|vm_compute in E; discriminate]. Qed.
