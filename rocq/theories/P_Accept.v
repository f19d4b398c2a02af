(** The builder accepts every source within the limits. *)
From Coq Require Import List ZArith Lia Bool Arith Sorted.
From Verif Require Import Base Utf8 S_Text M_Builder M_Lattice M_Bytes P_Bytes M_DicReader M_DicBuilder P_DicFormat P_DicWrite P_DicOpen P_DicGrammar P_DicSource
  M_LexiconSet P_LexiconSet Prop_Source Prop_Resource Prop_Format S_Accept.
Import ListNotations.
Open Scope Z_scope.

(** ** Lists *)
Lemma pieces_split sep t ws : pieces sep t ws -> split_on sep t = ws.
Proof. induction 1 as [w N|w t ws N P IH]; [now apply split_on_plain|]. rewrite split_on_app by assumption. now rewrite IH. Qed.
Lemma count_filter c t : count_occ Z.eq_dec t c = length (filter (Z.eqb c) t).
Proof.
  induction t as [|x t IH]; [reflexivity|]. cbn [count_occ filter]. destruct (Z.eq_dec x c) as [->|N].
  - rewrite Z.eqb_refl. cbn [length]. now rewrite IH.
  - destruct (Z.eqb_spec c x); [congruence|auto].
Qed.
Lemma pieces_count sep t ws : pieces sep t ws -> length ws = S (count_occ Z.eq_dec t sep).
Proof. intros H. apply pieces_split in H as <-. rewrite split_on_length, count_filter. reflexivity. Qed.
Lemma speech_slice cs : (18 <= length cs)%nat -> slice cs 5 11 = speech cs.
Proof.
  intros L. do 11 (destruct cs as [|? cs]; [cbn [length] in L; lia|]). reflexivity.
Qed.
Lemma sum_app a b : sum (a ++ b) = (sum a + sum b)%nat.
Proof. induction a; cbn [sum fold_right app]; [reflexivity|]. unfold sum in *. lia. Qed.
Lemma sum_incl {A} (f : A -> nat) l : forall l', NoDup l -> incl l l' -> (sum (map f l) <= sum (map f l'))%nat.
Proof.
  induction l as [|x l IH]; intros l' N I; [cbn; lia|]. inversion N; subst.
  destruct (in_split x l') as (a & b & ->); [apply I; now left|].
  assert (J : incl l (a ++ b)).
  { intros y Hy. specialize (I y (or_intror Hy)). apply in_app_or in I as [I|[I|I]]; [apply in_or_app; auto|subst; contradiction|apply in_or_app; auto]. }
  specialize (IH _ H2 J). rewrite map_app, sum_app in *. cbn [map sum fold_right] in *. unfold sum in *. lia.
Qed.
Lemma put_byte_total z : 0 <= z < 256 -> exists b, put_byte z = Ok b /\ length b = 1%nat.
Proof. intros H. exists [z]. split; [apply put_byte_ok; auto|reflexivity]. Qed.
Lemma to_bytes_length n s z b : to_bytes n s z = Ok b -> length b = n.
Proof. unfold to_bytes. destruct (if s then _ else _); [|discriminate]. intros [= <-]. apply le_length. Qed.
Lemma short_total z : in_short z -> exists b, put_short z = Ok b /\ length b = 2%nat.
Proof. intros H. destruct (put_short_total z) as [b E]; [unfold in_short in H; lia|]. exists b. split; [exact E|]. eapply to_bytes_length; exact E. Qed.
Lemma int_total z : in_int z -> exists b, put_int z = Ok b /\ length b = 4%nat.
Proof. intros H. destruct (put_int_total z) as [b E]; [unfold in_int in H; lia|]. exists b. split; [exact E|]. eapply to_bytes_length; exact E. Qed.
Lemma length_total n : 0 <= n < 65536 -> exists b, put_length n = Ok b /\ (length b <= 2)%nat.
Proof.
  intros H. destruct (put_length_total n H) as [b E]. exists b. split; [exact E|]. unfold put_length in E. destruct (n <=? 127).
  - apply (to_bytes_length 1 false) in E. lia.
  - apply bind_ok in E as (a & Ea & E). apply bind_ok in E as (c & Ec & E). apply (to_bytes_length 1 false) in Ea, Ec.
    assert (b = a ++ c) as -> by congruence. rewrite app_length. lia.
Qed.
Lemma units_length t : (length (units t) <= 2 * length t)%nat.
Proof.
  induction t as [|c t IH]; [cbn; lia|]. unfold units in *. cbn [map concat length]. rewrite app_length.
  assert (length (units_cp c) <= 2)%nat by (unfold units_cp; destruct (_ <? _); cbn; lia). lia.
Qed.
Lemma string_total t : scalar_text t -> Z.of_nat (length t) <= 32767 -> exists b, put_string t = Ok b /\ (length b <= string_size t)%nat.
Proof.
  intros S L. pose proof (units_length t) as U. destruct (length_total (Z.of_nat (length (units t)))) as (a & Ea & La); [lia|].
  destruct (utf16_total t S) as (b & Eb). exists (a ++ b). unfold put_string. rewrite Ea. cbn [bind]. rewrite Eb. cbn [bind]. split; [reflexivity|].
  rewrite app_length. apply utf16_length in Eb. unfold string_size. lia.
Qed.
Lemma put_all_total {A} (f : A -> res bytes) (n : A -> nat) l :
  (forall x, In x l -> exists b, f x = Ok b /\ (length b <= n x)%nat) -> exists b, put_all f l = Ok b /\ (length b <= sum (map n l))%nat.
Proof.
  induction l as [|x l IH]; intros H; cbn [put_all].
  - exists []. split; [reflexivity|cbn; lia].
  - destruct (H x (or_introl eq_refl)) as (a & Ea & La). destruct IH as (b & Eb & Lb); [intros y Hy; apply H; now right|].
    rewrite Ea. cbn [bind]. rewrite Eb. cbn [bind]. exists (a ++ b). split; [reflexivity|]. rewrite app_length. cbn [map sum fold_right]. unfold sum in Lb. lia.
Qed.
Lemma sum_const {A} (l : list A) n : sum (map (fun _ => n) l) = (n * length l)%nat.
Proof. induction l; cbn [map sum fold_right length]; [lia|]. unfold sum in IHl. lia. Qed.
Lemma array_total l : (length l <= 127)%nat -> Forall in_int l -> exists b, put_int_array l = Ok b /\ (length b <= 1 + 4 * length l)%nat.
Proof.
  intros L F. destruct (put_byte_total (Z.of_nat (length l))) as (a & Ea & La); [lia|].
  destruct (put_all_total put_int (fun _ => 4%nat) l) as (b & Eb & Lb).
  { intros x Hx. rewrite Forall_forall in F. destruct (int_total x (F x Hx)) as (b & E & L'). exists b. split; [exact E|lia]. }
  rewrite sum_const in Lb. exists (a ++ b). unfold put_int_array. rewrite Ea. cbn [bind]. rewrite Eb. cbn [bind]. split; [reflexivity|]. rewrite app_length. lia.
Qed.
Lemma f_write_pos f b : f_pos (f_write f b) = (f_pos f + length b)%nat.
Proof. destruct b; cbn [f_write f_pos length]; lia. Qed.

Lemma f_write_data f b : (length (f_data (f_write f b)) <= Nat.max (length (f_data f)) (f_pos f + length b))%nat.
Proof.
  destruct b as [|x b]; [cbn [f_write]; lia|]. unfold f_write. cbn [f_data]. rewrite !app_length, firstn_length, repeat_length, skipn_length. lia.
Qed.

Lemma filter_seq {A} (p : A -> bool) (l : list A) : forall b,
  length (filter p l) = length (filter (fun i => match nth_error l (i - b) with Some x => p x | None => false end) (seq b (length l))).
Proof.
  induction l as [|x l IH]; intros b; [reflexivity|]. cbn [length seq filter]. rewrite Nat.sub_diag. cbn [nth_error].
  assert (X : filter (fun i => match nth_error (x :: l) (i - b) with Some y => p y | None => false end) (seq (S b) (length l)) =
              filter (fun i => match nth_error l (i - S b) with Some y => p y | None => false end) (seq (S b) (length l))).
  { apply filter_ext_in. intros i Hi. apply in_seq in Hi. replace (i - b)%nat with (S (i - S b)) by lia. reflexivity. }
  rewrite X. destruct (p x); cbn [length]; now rewrite (IH (S b)).
Qed.
Lemma count_le {A} (p : A -> bool) (l : list A) (ws : list nat) :
  NoDup ws -> (forall w, In w ws -> exists x, nth_error l w = Some x /\ p x = true) -> (length ws <= length (filter p l))%nat.
Proof.
  intros N I. rewrite (filter_seq p l O). apply NoDup_incl_length; [exact N|]. intros w Hw. destruct (I w Hw) as (x & E & P).
  apply filter_In. split; [apply in_seq; split; [lia|]; apply nth_error_Some; congruence|]. rewrite Nat.sub_0_r, E. exact P.
Qed.
Lemma sorted_nodup ws : StronglySorted lt ws -> NoDup ws.
Proof. induction 1 as [|x l S IH F]; constructor; [|exact IH]. intros I. rewrite Forall_forall in F. specialize (F x I). lia. Qed.

(** ** Parts of speech *)
Lemma index_of_all l x : In x l -> exists i, index_of teqb l x = Some i /\ (i < length l)%nat.
Proof.
  induction l as [|y l IH]; intros H; [destruct H|]. cbn [index_of]. destruct (teqb y x) eqn:E; [exists O; cbn [length]; split; [reflexivity|lia]|].
  destruct H as [->|H]; [rewrite (proj2 (teqb_eq x x) eq_refl) in E; discriminate|]. destruct (IH H) as (i & -> & L). exists (S i). cbn [length]. split; [reflexivity|lia].
Qed.
Lemma index_of_none l x : index_of teqb l x = None -> ~ In x l.
Proof. intros E H. destruct (index_of_all l x H) as (i & X & _). congruence. Qed.
Lemma index_of_app l r x i : index_of teqb l x = Some i -> index_of teqb (l ++ r) x = Some i.
Proof.
  revert i. induction l as [|y l IH]; intros i H; [discriminate|]. cbn [index_of app] in *. destruct (teqb y x); [exact H|].
  destruct (index_of teqb l x) as [j|]; [|discriminate]. rewrite (IH j eq_refl). exact H.
Qed.
Lemma index_of_new l x : index_of teqb l x = None -> index_of teqb (l ++ [x]) x = Some (length l).
Proof.
  induction l as [|y l IH]; intros H; cbn [index_of app length].
  - now rewrite (proj2 (teqb_eq x x) eq_refl).
  - cbn [index_of] in H. destruct (teqb y x); [discriminate|]. destruct (index_of teqb l x); [discriminate|]. now rewrite IH.
Qed.
Lemma table_id_stable table s i table' rest : table_id table s = (i, table') -> table_id (table' ++ rest) s = (i, table' ++ rest).
Proof.
  unfold table_id. destruct (index_of teqb table s) as [j|] eqn:E; intros H.
  - assert (table' = table) by congruence. subst. rewrite (index_of_app _ _ _ _ E). congruence.
  - assert (table' = table ++ [s]) by congruence. subst. rewrite (index_of_app _ _ _ _ (index_of_new _ _ E)). congruence.
Qed.
Lemma get_posid_stable k table strs i table' rest :
  get_posid k table strs = (i, table') -> get_posid k (table' ++ rest) strs = (i, table' ++ rest).
Proof.
  unfold get_posid. destruct k as [|g sid n]; [apply table_id_stable|]. destruct (get_part_of_speech_id g strs <? 0); [|congruence].
  destruct (table_id table (join_with comma strs)) as [j tb] eqn:E. intros H. assert (table' = tb) by congruence. subst.
  rewrite (table_id_stable _ _ _ _ rest E). congruence.
Qed.
Lemma pos_id_bound g pos : get_part_of_speech_id g pos < Z.of_nat (length (g_pos g)).
Proof.
  unfold get_part_of_speech_id. destruct (index_of (list_eqb (list_eqb Z.eqb)) (g_pos g) pos) as [i|] eqn:X; [|lia].
  apply index_of_ok in X as (x & X & _). apply Nat2Z.inj_lt. apply nth_error_Some. intros X0. assert (Y : Some x = None) by (etransitivity; [symmetry; exact X|exact X0]). discriminate Y.
Qed.
Definition base (k : kind) : nat := match k with SystemDic => 0 | UserDic g _ _ => length (g_pos g) end.
Lemma get_posid_spec k table strs i table' :
  get_posid k table strs = (i, table') ->
  0 <= i < Z.of_nat (length table' + base k) /\ (NoDup table -> NoDup table') /\
  (exists rest, table' = table ++ rest) /\ (forall x, In x table' -> In x table \/ x = join_with comma strs).
Proof.
  assert (T : forall i table', table_id table (join_with comma strs) = (i, table') -> 0 <= i < Z.of_nat (length table') /\ (NoDup table -> NoDup table') /\
    (exists rest, table' = table ++ rest) /\ (forall x, In x table' -> In x table \/ x = join_with comma strs)).
  { clear. intros i table'. unfold table_id. destruct (index_of teqb table (join_with comma strs)) as [j|] eqn:E; intros H.
    - assert (table' = table) by congruence. assert (i = Z.of_nat j) by congruence. subst. split.
      + apply index_of_ok in E as (x & X & _). assert (j < length table)%nat by (apply nth_error_Some; congruence). lia.
      + split; [auto|]. split; [exists []; now rewrite app_nil_r|auto].
    - assert (table' = table ++ [join_with comma strs]) by congruence. assert (i = Z.of_nat (length table)) by congruence. subst.
      split; [rewrite app_length; cbn [length]; lia|]. split.
      + intros N. apply index_of_none in E. clear - N E. induction table as [|y l IH]; cbn [app]; [constructor; [auto|constructor]|]. inversion N; subst. constructor.
        * intros H. apply in_app_or in H as [H|[H|[]]]; [contradiction|]. apply E. now left.
        * apply IH; try assumption. intros H. apply E. now right.
      + split; [eauto|]. intros x Hx. apply in_app_or in Hx as [Hx|[Hx|[]]]; auto. }
  unfold get_posid, base. destruct k as [|g sid n].
  - intros H. apply T in H as (A & B). split; [lia|exact B].
  - pose proof (pos_id_bound g strs) as PB. destruct (get_part_of_speech_id g strs <? 0) eqn:E.
    + destruct (table_id table (join_with comma strs)) as [j tb] eqn:X. destruct (T _ _ eq_refl) as (A & B). intros H.
      assert (table' = tb) by congruence. assert (i = j + Z.of_nat (length (g_pos g))) by congruence. subst. split; [lia|exact B].
    + apply Z.ltb_ge in E. intros H. assert (table' = table) by congruence. assert (i = get_part_of_speech_id g strs) by congruence. subst.
      split; [lia|]. split; [auto|]. split; [exists []; now rewrite app_nil_r|auto].
Qed.

Section accept.
Variable k : kind.
Variable py_int : text -> res Z.
Variable is_digit : Z -> bool.
Hypothesis comma_digit : is_digit 44 = false.

(** ** Rows *)
Section rows.
Variable css : list (list text).

(** What the entry of a row is *)
Record made (cs : list text) (e : entry) : Prop := {
  md_head : e_headword e = if teqb (column cs 1) [45; 49] then None else Some (column cs 0);
  md_left : py_int (column cs 1) = Ok (e_left e);
  md_right : py_int (column cs 2) = Ok (e_right e);
  md_cost : py_int (column cs 3) = Ok (e_cost e);
  md_surface : e_surface e = column cs 4;
  md_reading : e_reading e = column cs 11;
  md_norm : e_norm e = column cs 12;
  md_length : Z.of_nat (e_head_length e) <= 32767;
  md_form : in_int (e_dic_id e);
  md_a : e_a e = column cs 15;
  md_b : e_b e = column cs 16;
  md_c : e_c e = column cs 17;
  md_syn : (length (e_syn e) <= 127)%nat /\ Forall in_int (e_syn e) /\ (4 * length (e_syn e) <= 4 + 4 * count_occ Z.eq_dec (column cs 18) 47%Z)%nat;
}.

Lemma split_column_format t : split_column k py_int is_digit css t -> check_splitinfo_format t = Ok tt.
Proof.
  unfold check_splitinfo_format, ARRAY_MAX_LENGTH. intros [->|(ws & P & L & _)]; [reflexivity|]. apply pieces_count in P.
  rewrite count_filter in P. unfold slash. replace (127 <? length (filter (Z.eqb 47) t) + 1)%nat with false; [reflexivity|]. symmetry. apply Nat.ltb_ge. lia.
Qed.

Lemma parse_line_total table row cs :
  Forall2 (fun c c' => unescape c = Ok c') row cs -> good_row k py_int is_digit css cs ->
  exists e, parse_line k py_int table row = Ok (e, snd (get_posid k table (speech cs))) /\ e_pos e = fst (get_posid k table (speech cs)) /\ made cs e.
Proof.
  intros F G. assert (Lr : length row = length cs) by (clear - F; induction F; cbn [length]; congruence).
  assert (M : mapM unescape row = Ok cs). { clear - F. induction F as [|c c' row cs H F IH]; [reflexivity|]. cbn [mapM]. rewrite H. cbn [bind]. now rewrite IH. }
  destruct G as [GC (GH & b & Eb & Lb) GN GT GS GF GU GP GY].
  inversion GN as [|? ? (l & El & Sl) GN1]; subst. inversion GN1 as [|? ? (r & Er & Sr) GN2]; subst. inversion GN2 as [|? ? (c & Ec & Sc) _]; subst. clear GN GN1 GN2.
  inversion GT as [|? ? (S4 & L4) GT1]; subst. inversion GT1 as [|? ? (S11 & L11) GT2]; subst. inversion GT2 as [|? ? (S12 & L12) _]; subst. clear GT GT1 GT2.
  inversion GP as [|? ? P15 GP1]; subst. inversion GP1 as [|? ? P16 GP2]; subst. inversion GP2 as [|? ? P17 _]; subst. clear GP GP1 GP2.
  unfold parse_line. replace (length row <? 18)%nat with false by (symmetry; apply Nat.ltb_ge; lia). rewrite M. cbn [bind].
  unfold column in *. rewrite Eb. cbn [bind].
  assert (V : is_length_valid b (nth 4 cs []) (nth 11 cs []) (nth 12 cs []) = true).
  { unfold is_length_valid, STRING_MAX_LENGTH. rewrite !andb_true_iff, !Z.leb_le. auto. }
  rewrite V. cbn [negb]. destruct (nth 0 cs []) as [|h0 h] eqn:E0; [congruence|]. rewrite El, Er, Ec. cbn [bind].
  rewrite speech_slice by assumption. destruct (get_posid k table (speech cs)) as [pos tb] eqn:Eg. cbn [fst snd].
  destruct (get_posid_spec _ _ _ _ _ Eg) as (Pp & _). replace (pos <? 0) with false by (symmetry; apply Z.ltb_ge; lia).
  rewrite (split_column_format _ P15), (split_column_format _ P16), (split_column_format _ P17). cbn [bind].
  assert (U : teqb (nth 14 cs []) [65] && negb (teqb (nth 15 cs []) star && teqb (nth 16 cs []) star) = false).
  { destruct (teqb (nth 14 cs []) [65]) eqn:E14; [|reflexivity]. apply teqb_eq in E14. destruct (GU E14) as [-> ->]. reflexivity. }
  rewrite U. clear U.
  assert (Y : exists syn, (if (18 <? length cs)%nat then parse_synonym_group_ids py_int (nth 18 cs []) else Ok []) = Ok syn /\ (length syn <= 127)%nat /\ Forall in_int syn
    /\ (4 * length syn <= 4 + 4 * count_occ Z.eq_dec (nth 18 cs []) 47%Z)%nat).
  { destruct (18 <? length cs)%nat eqn:E18; [|exists []; split; [reflexivity|cbn; repeat split; [lia|constructor|lia]]].
    apply Nat.ltb_lt in E18. unfold parse_synonym_group_ids.
    destruct GY as [X|[X|(ws & X & L & F2)]]; [lia|exists []; rewrite X; split; [reflexivity|cbn; repeat split; [lia|constructor|lia]]|].
    destruct (teqb (nth 18 cs []) star) eqn:Es; [exists []; split; [reflexivity|cbn [length]; repeat split; [lia|constructor|lia]]|].
    pose proof (pieces_split _ _ _ X) as Xs. unfold slash. rewrite Xs. pose proof (pieces_count _ _ _ X) as Xc.
    unfold ARRAY_MAX_LENGTH. replace (127 <? length ws)%nat with false by (symmetry; apply Nat.ltb_ge; lia).
    clear - F2 L Xc.
    assert (G : exists zs, mapM py_int ws = Ok zs /\ Forall in_int zs).
    { clear - F2. induction F2 as [|w ws (z & Ez & Iz) F IH]; [exists []; split; [reflexivity|constructor]|]. destruct IH as (zs & E & I).
      exists (z :: zs). cbn [mapM]. rewrite Ez. cbn [bind]. rewrite E. split; [reflexivity|constructor; auto]. }
    destruct G as (zs & E & I). exists zs. split; [exact E|]. apply mapM_ok_length in E. repeat split; [lia|exact I|lia]. }
  destruct Y as (syn & -> & Y). cbn [bind].
  assert (D : exists did, (if teqb (nth 13 cs []) star then Ok (-1) else py_int (nth 13 cs [])) = Ok did /\ in_int did).
  { destruct (teqb (nth 13 cs []) star) eqn:E13; [exists (-1); split; [reflexivity|unfold in_int; lia]|].
    destruct GF as [X|X]; [|exact X]. rewrite X in E13. discriminate. }
  destruct D as (did & -> & Id). cbn [bind]. eexists. split; [reflexivity|]. cbn [e_pos]. split; [reflexivity|].
  constructor; cbn [e_headword e_left e_right e_cost e_surface e_reading e_norm e_head_length e_dic_id e_a e_b e_c e_syn]; unfold column; auto.
  now rewrite E0.
Qed.

(** The state of the builder after some rows *)
Record holds (done : list (list text)) (s : source) : Prop := {
  hs_ok : source_ok s;
  hs_entries : Forall2 (fun cs e => made cs e /\ get_posid k (s_table s) (speech cs) = (e_pos e, s_table s)) done (s_entries s);
  hs_nodup : NoDup (s_table s);
  hs_table : forall x, In x (s_table s) -> exists cs, In cs done /\ x = join_with comma (speech cs);
  hs_total : (sum (map (fun kw => length (snd kw)) (s_keys s)) <= length (s_entries s))%nat;
}.

Lemma add_key_sum keys key w :
  sum (map (fun kw : bytes * list nat => length (snd kw)) (add_key keys key w)) = S (sum (map (fun kw => length (snd kw)) keys)).
Proof.
  induction keys as [|(x, l) keys IH]; [reflexivity|]. cbn [add_key]. destruct (list_eqb Z.eqb key x); [|destruct (bytes_lt key x)];
    cbn [map sum fold_right snd length]; unfold sum in *; [rewrite app_length; cbn [length]; lia|lia|lia].
Qed.

Lemma build_row_total done s row cs :
  holds done s -> Forall2 (fun c c' => unescape c = Ok c') row cs -> good_row k py_int is_digit css cs ->
  exists s', build_row k py_int s row = Ok s' /\ holds (done ++ [cs]) s'.
Proof.
  intros [HO HE HN HT HS] F G. destruct (parse_line_total (s_table s) row cs F G) as (e & Ep & Ee & Me).
  destruct (get_posid k (s_table s) (speech cs)) as [pos tb] eqn:Eg. cbn [fst snd] in *.
  destruct (get_posid_spec _ _ _ _ _ Eg) as (_ & N & (rest & Er) & I).
  assert (B : exists s', build_row k py_int s row = Ok s' /\ s_entries s' = s_entries s ++ [e] /\ s_table s' = tb /\
    (sum (map (fun kw => length (snd kw)) (s_keys s')) <= S (sum (map (fun kw => length (snd kw)) (s_keys s))))%nat).
  { unfold build_row. rewrite Ep. cbn [bind]. destruct Me as [Mh _ _ _ _ _ _ _ _ _ _ _ _]. rewrite Mh.
    destruct (gr_headword _ _ _ _ _ G) as (GH & b & Eb & _).
    destruct (teqb (column cs 1) [45; 49]); [cbn [bind]; eexists; split; [reflexivity|cbn [s_entries s_table s_keys]; repeat split; lia]|].
    destruct (column cs 0) as [|h0 h]; [congruence|]. unfold add_to_trie. rewrite Eb. cbn [bind]. eexists. split; [reflexivity|]. cbn [s_entries s_table s_keys].
    rewrite add_key_sum. repeat split; lia. }
  destruct B as (s' & B & B1 & B2 & B3). exists s'. split; [exact B|]. constructor.
  - now destruct (build_row_ok _ _ _ _ _ HO B).
  - rewrite B1, B2. apply Forall2_app.
    + clear - HE Er Eg. induction HE as [|x y l1 l2 [H1 H2] HE IH]; constructor; auto. split; [exact H1|]. rewrite Er. now apply get_posid_stable with (table := s_table s).
    + constructor; [|constructor]. split; [exact Me|]. rewrite Ee. rewrite <- (app_nil_r tb). now apply get_posid_stable with (table := s_table s).
  - rewrite B2. auto.
  - rewrite B2. intros x Hx. destruct (I x Hx) as [Hx'|Hx'].
    + destruct (HT x Hx') as (cs' & A & C). exists cs'. split; [apply in_or_app; auto|exact C].
    + exists cs. split; [apply in_or_app; right; now left|exact Hx'].
  - rewrite B1, app_length. cbn [length]. lia.
Qed.

Lemma build_lexicon_total rows : forall done s todo,
  holds done s -> Forall2 (Forall2 (fun c c' => unescape c = Ok c')) rows todo -> Forall (good_row k py_int is_digit css) todo ->
  exists s', build_lexicon k py_int s rows = Ok s' /\ holds (done ++ todo) s'.
Proof.
  unfold build_lexicon. induction rows as [|row rows IH]; intros done s todo H F G; inversion F; subst.
  - exists s. split; [reflexivity|]. now rewrite app_nil_r.
  - inversion G; subst. destruct (build_row_total done s row y H) as (s1 & E1 & H1); [assumption|assumption|].
    destruct (IH _ _ _ H1 H4) as (s2 & E2 & H2'); [assumption|]. exists s2. cbn [foldM]. rewrite E1. cbn [bind]. split; [exact E2|].
    now rewrite <- app_assoc in H2'.
Qed.

Lemma holds_new : holds [] new_source.
Proof. constructor; [apply new_source_ok|constructor|constructor|intros x []|reflexivity]. Qed.
End rows.

(** ** Units of splits *)
Section writing.
Variable css : list (list text).
Variable s : source.
Hypothesis H : holds css s.
Hypothesis few : Z.of_nat (length css) < 2 ^ 28.

Lemma entries_length : length (s_entries s) = length css.
Proof. destruct H as [_ HE _ _ _]. clear - HE. induction HE; cbn [length]; congruence. Qed.

Lemma entry_of_row i cs : nth_error css i = Some cs ->
  exists e, nth_error (s_entries s) i = Some e /\ made cs e /\ get_posid k (s_table s) (speech cs) = (e_pos e, s_table s).
Proof.
  destruct H as [_ HE _ _ _]. clear - HE. revert i. induction HE as [|x y l1 l2 [A B] HE IH]; intros i E; [destruct i; discriminate|].
  destruct i as [|i]; cbn [nth_error] in *; [assert (x = cs) by congruence; subst; eauto|auto].
Qed.
Lemma row_of_entry i e : nth_error (s_entries s) i = Some e -> exists cs, nth_error css i = Some cs /\ made cs e.
Proof.
  destruct H as [_ HE _ _ _]. clear - HE. revert i. induction HE as [|x y l1 l2 [A B] HE IH]; intros i E; [destruct i; discriminate|].
  destruct i as [|i]; cbn [nth_error] in *; [assert (y = e) by congruence; subst; eauto|auto].
Qed.

Lemma not_u {A} (c : Z) (x y : A) : c <> 85 -> match c with 85 => x | _ => y end = y.
Proof.
  intros N. destruct c as [|p|p]; try reflexivity.
  do 7 (destruct p as [p|p|]; try reflexivity). congruence.
Qed.

Lemma is_id_number t : t <> [] -> Forall (fun c => is_digit c = true) t -> hd 0 t <> 85 -> is_id is_digit t = true.
Proof.
  intros N F D. destruct t as [|c t]; [congruence|]. cbn [hd] in D. unfold is_id.
  cbv zeta. cbv beta iota. rewrite (@not_u text c t (c :: t) D). apply orb_true_iff. left. apply forallb_forall. now rewrite <- Forall_forall.
Qed.
Lemma is_id_row t : t <> [] -> Forall (fun c => is_digit c = true) t -> is_id is_digit (85 :: t) = true.
Proof.
  intros N F. unfold is_id. cbv zeta. apply orb_true_iff. left. destruct t; [congruence|]. apply forallb_forall. now rewrite <- Forall_forall.
Qed.
Lemma forallb_comma t : In 44 t -> forallb is_digit t = false.
Proof. intros I. destruct (forallb is_digit t) eqn:E; [|reflexivity]. rewrite forallb_forall in E. specialize (E 44 I). congruence. Qed.
Lemma drop_newline_comma t : In 44 t -> In 44 (drop_newline t).
Proof.
  intros I. unfold drop_newline. destruct (rev t) as [|c r] eqn:E; [exact I|].
  destruct (Z.eq_dec c 10) as [->|N].
  - apply in_rev in I. rewrite E in I. destruct I as [I|I]; [discriminate|]. now apply -> in_rev.
  - assert (X : forall x y : text, In 44 y -> In 44 (match c with 10 => x | _ => y end)).
    { intros x y Hy. clear - N Hy. destruct c as [|p|p]; auto. do 4 (destruct p as [p|p|]; auto). congruence. }
    now apply X.
Qed.
Lemma is_id_word t : In 44 t -> is_id is_digit t = false.
Proof.
  assert (X : forall d : text, In 44 d -> match d with [] => false | _ => forallb is_digit d end = false).
  { intros d I. destruct d; [reflexivity|]. now apply forallb_comma. }
  intros I. unfold is_id. cbv zeta. destruct t as [|c t]; [destruct I|]. destruct (Z.eq_dec c 85) as [->|N].
  - destruct I as [I|I]; [discriminate|]. cbv iota beta. apply orb_false_iff. split; apply X; [exact I|now apply drop_newline_comma].
  - cbv iota beta. rewrite (@not_u text c t (c :: t) N). apply orb_false_iff. split; [now apply forallb_comma|]. apply X. now apply drop_newline_comma.
Qed.
Lemma pieces_comma t ws : pieces 44 t ws -> (2 <= length ws)%nat -> In 44 t.
Proof. destruct 1; cbn [length]; intros L; [lia|]. apply in_or_app. right. now left. Qed.

Lemma own_found e h p r : In e (s_entries s) -> e_surface e = h -> e_pos e = p -> e_reading e = r -> 0 <= own_wordid (s_entries s) h p r.
Proof.
  intros I <- <- <-. unfold own_wordid. induction (s_entries s) as [|x l IH]; [destruct I|]. cbn [index_of].
  destruct (teqb (e_surface x) (e_surface e) && (e_pos x =? e_pos e) && teqb (e_reading x) (e_reading e)) eqn:E; [lia|].
  destruct I as [->|I].
  - rewrite !(proj2 (teqb_eq _ _) eq_refl), Z.eqb_refl in E. discriminate.
  - specialize (IH I). revert IH. destruct (index_of _ l _); lia.
Qed.
Lemma own_range h p r : -1 <= own_wordid (s_entries s) h p r < Z.of_nat (length css).
Proof.
  destruct (Z_lt_ge_dec (own_wordid (s_entries s) h p r) 0) as [L|L].
  - split; [unfold own_wordid; destruct (index_of _ _ _); lia|lia].
  - destruct (own_wordid_ok (s_entries s) h p r ltac:(lia)) as (i & e & E & N & _). rewrite E. rewrite <- entries_length.
    assert (i < length (s_entries s))%nat by (apply nth_error_Some; congruence). lia.
Qed.
Lemma lor_user i : 0 <= i < 2 ^ 28 -> Z.lor i (Z.shiftl 1 28) = i + 2 ^ 28.
Proof. intros B. rewrite lor_add by lia. lia. Qed.

Lemma parse_id_total t : reference k py_int is_digit css t -> is_id is_digit t = true ->
  exists id, parse_id k py_int (s_entries s) t = Ok id /\ in_int id.
Proof.
  intros R I. pose proof entries_length as EL. unfold parse_id.
  destruct R as [t i N F D Ei V|t i N F Ei V|t ws h r cs P L Eh Er Ic E4 Es E11|t ws h r g sid n id Ek P L Eh Er Ig Es B].
  - assert (X : (match t with 85 :: r => i0 <- py_int r ;; Ok (match k with UserDic _ _ _ => Z.lor i0 (Z.shiftl 1 28) | SystemDic => i0 end) | _ => py_int t end) = Ok i).
    { destruct t as [|c t]; [congruence|]. cbn [hd] in D.
      etransitivity; [exact (not_u c _ (py_int (c :: t)) D)|exact Ei]. }
    rewrite X. cbn [bind]. unfold check_wordid. rewrite EL. destruct k as [|g sid n].
    + leb_f i 0 || (replace (i <? 0) with false by (symmetry; apply Z.ltb_ge; lia)).
      replace (Z.of_nat (length css) <=? i) with false by (symmetry; apply Z.leb_gt; lia). cbn [orb bind]. exists i. split; [reflexivity|unfold in_int; lia].
    + change (Z.shiftl 1 28) with (2 ^ 28). destruct V as [V|V].
      * replace (2 ^ 28 <=? i) with false by (symmetry; apply Z.leb_gt; lia). replace (i <? 0) with false by (symmetry; apply Z.ltb_ge; lia).
        replace (Z.of_nat n <=? i) with false by (symmetry; apply Z.leb_gt; lia). cbn [orb bind]. exists i. split; [reflexivity|unfold in_int; lia].
      * replace (2 ^ 28 <=? i) with true by (symmetry; apply Z.leb_le; lia). change (2 ^ 28 - 1) with (Z.ones 28). rewrite Z.land_ones by lia.
        pose proof (Z.mod_pos_bound i (2 ^ 28) ltac:(lia)) as MB. replace (i mod 2 ^ 28 <? 0) with false by (symmetry; apply Z.ltb_ge; lia).
        replace (Z.of_nat (length css) <=? i mod 2 ^ 28) with false by (symmetry; apply Z.leb_gt; lia). cbn [orb bind]. exists i. split; [reflexivity|unfold in_int; lia].
  - rewrite Ei. cbn [bind]. unfold check_wordid. rewrite EL. destruct k as [|g sid n].
    + replace (i <? 0) with false by (symmetry; apply Z.ltb_ge; lia).
      replace (Z.of_nat (length css) <=? i) with false by (symmetry; apply Z.leb_gt; lia). cbn [orb bind]. exists i. split; [reflexivity|unfold in_int; lia].
    + rewrite lor_user by lia. change (Z.shiftl 1 28) with (2 ^ 28). replace (2 ^ 28 <=? i + 2 ^ 28) with true by (symmetry; apply Z.leb_le; lia).
      change (2 ^ 28 - 1) with (Z.ones 28). rewrite Z.land_ones by lia. replace ((i + 2 ^ 28) mod 2 ^ 28) with i.
      2: { rewrite <- (Z.mul_1_l (2 ^ 28)) at 1. rewrite Z.mod_add by lia. symmetry. apply Z.mod_small. lia. }
      replace (i <? 0) with false by (symmetry; apply Z.ltb_ge; lia).
      replace (Z.of_nat (length css) <=? i) with false by (symmetry; apply Z.leb_gt; lia). cbn [orb bind]. exists (i + 2 ^ 28). split; [reflexivity|unfold in_int; lia].
  - rewrite is_id_word in I; [discriminate|]. eapply pieces_comma; [exact P|lia].
  - rewrite is_id_word in I; [discriminate|]. eapply pieces_comma; [exact P|lia].
Qed.

Lemma parse_unit_total t : reference k py_int is_digit css t ->
  exists id, parse_unit k py_int is_digit (s_entries s) (s_table s) t = Ok (id, s_table s) /\ in_int id.
Proof.
  intros R. unfold parse_unit. destruct (is_id is_digit t) eqn:I.
  { destruct (parse_id_total t R I) as (id & -> & B). cbn [bind]. eauto. }
  destruct R as [t i N F D Ei V|t i N F Ei V|t ws h r cs P L Eh Er Ic E4 Es E11|t ws h r g sid n id Ek P L Eh Er Ig Es B].
  - rewrite is_id_number in I by assumption. discriminate.
  - rewrite is_id_row in I by assumption. discriminate.
  - unfold word_to_id. rewrite (pieces_split _ _ _ P : split_on comma t = ws). replace (length ws <? 8)%nat with false by (symmetry; apply Nat.ltb_ge; lia).
    rewrite Eh. cbn [bind]. rewrite <- Es. destruct (In_nth_error _ _ Ic) as (j & Ej). destruct (entry_of_row j cs Ej) as (e & Ee & Me & Ep).
    rewrite Ep. destruct (get_posid_spec _ _ _ _ _ Ep) as (Pp & _). replace (e_pos e <? 0) with false by (symmetry; apply Z.ltb_ge; lia).
    rewrite Er. cbn [bind]. unfold get_wordid.
    assert (O : 0 <= own_wordid (s_entries s) h (e_pos e) r).
    { destruct Me. apply (own_found e); [eapply nth_error_In; exact Ee|congruence|reflexivity|congruence]. }
    pose proof (own_range h (e_pos e) r) as OR. destruct k as [|g sid n].
    + cbn [bind]. replace (own_wordid (s_entries s) h (e_pos e) r <? 0) with false by (symmetry; apply Z.ltb_ge; lia).
      eexists. split; [reflexivity|unfold in_int; lia].
    + replace (0 <=? own_wordid (s_entries s) h (e_pos e) r) with true by (symmetry; apply Z.leb_le; lia). rewrite lor_user by lia. cbn [bind].
      replace (own_wordid (s_entries s) h (e_pos e) r + 2 ^ 28 <? 0) with false by (symmetry; apply Z.ltb_ge; lia).
      eexists. split; [reflexivity|unfold in_int; lia].
  - unfold word_to_id. rewrite (pieces_split _ _ _ P : split_on comma t = ws). replace (length ws <? 8)%nat with false by (symmetry; apply Nat.ltb_ge; lia).
    rewrite Eh. cbn [bind]. destruct (pos_id_spec g _ Ig) as (_ & Pp). unfold get_posid, get_wordid. rewrite Ek.
    replace (get_part_of_speech_id g (slice ws 1 7) <? 0) with false by (symmetry; apply Z.ltb_ge; lia).
    replace (get_part_of_speech_id g (slice ws 1 7) <? 0) with false by (symmetry; apply Z.ltb_ge; lia).
    rewrite Er. cbn [bind]. pose proof (own_range h (get_part_of_speech_id g (slice ws 1 7)) r) as OR.
    destruct (0 <=? own_wordid (s_entries s) h (get_part_of_speech_id g (slice ws 1 7)) r) eqn:E0.
    + apply Z.leb_le in E0. rewrite lor_user by lia. cbn [bind].
      match goal with |- context [?x + 2 ^ 28 <? 0] => replace (x + 2 ^ 28 <? 0) with false by (symmetry; apply Z.ltb_ge; lia) end.
      eexists. split; [reflexivity|unfold in_int; lia].
    + rewrite Es. cbn [bind]. replace (id <? 0) with false by (symmetry; apply Z.ltb_ge; lia). eexists. split; [reflexivity|unfold in_int; lia].
Qed.

Lemma parse_units_total ws : Forall (reference k py_int is_digit css) ws ->
  exists ids, parse_units k py_int is_digit (s_entries s) (s_table s) ws = Ok (ids, s_table s) /\ length ids = length ws /\ Forall in_int ids.
Proof.
  induction 1 as [|w ws R F (ids & E & L & I)]; [exists []; repeat split; constructor|].
  destruct (parse_unit_total w R) as (id & Ei & Ii). cbn [parse_units]. rewrite Ei. cbn [bind]. rewrite E. cbn [bind].
  exists (id :: ids). split; [reflexivity|]. cbn [length]. split; [congruence|constructor; auto].
Qed.
Lemma parse_splitinfo_total t : split_column k py_int is_digit css t ->
  exists ids b, parse_splitinfo k py_int is_digit (s_entries s) (s_table s) t = Ok (ids, s_table s) /\ put_int_array ids = Ok b /\ (length b <= array_size t)%nat.
Proof.
  intros C. unfold parse_splitinfo, array_size. destruct (teqb t star) eqn:E.
  - destruct (array_total []) as (b & Eb & Lb); [cbn; lia|constructor|]. cbn [length] in Lb. exists [], b. split; [reflexivity|]. split; [exact Eb|lia].
  - destruct C as [->|(ws & P & L & F)]; [discriminate|]. rewrite (pieces_split _ _ _ P : split_on slash t = ws).
    unfold ARRAY_MAX_LENGTH. replace (127 <? length ws)%nat with false by (symmetry; apply Nat.ltb_ge; lia).
    destruct (parse_units_total ws F) as (ids & Ei & Li & Ii). destruct (array_total ids) as (b & Eb & Lb); [lia|exact Ii|].
    exists ids, b. split; [exact Ei|]. split; [exact Eb|]. apply pieces_count in P. lia.
Qed.

(** ** Word infos *)
Lemma put_word_info_total cs e : good_row k py_int is_digit css cs -> made cs e -> 0 <= e_pos e < 32768 ->
  exists b, put_word_info k py_int is_digit (s_entries s) (s_table s) e = Ok (b, s_table s) /\ (length b <= row_size cs)%nat.
Proof.
  intros [GC GH GN GT GS GF GU GP GY] M Bp. destruct M as [_ _ _ _ M4 M11 M12 ML MF MA MB MC (MY1 & MY2 & MY3)].
  inversion GT as [|? ? (S4 & L4) GT1]; subst. inversion GT1 as [|? ? (S11 & L11) GT2]; subst. inversion GT2 as [|? ? (S12 & L12) _]; subst. clear GT GT1 GT2.
  inversion GP as [|? ? P15 GP1]; subst. inversion GP1 as [|? ? P16 GP2]; subst. inversion GP2 as [|? ? P17 _]; subst. clear GP GP1 GP2.
  destruct (string_total _ S4 L4) as (b1 & E1 & N1). destruct (length_total (Z.of_nat (e_head_length e))) as (b2 & E2 & N2); [lia|].
  destruct (short_total (e_pos e)) as (b3 & E3 & N3); [unfold in_short; lia|].
  assert (S : forall t, scalar_text t -> Z.of_nat (length t) <= 32767 -> exists b, put_string (if teqb t (column cs 4) then [] else t) = Ok b /\ (length b <= string_size t)%nat).
  { intros t St Lt. destruct (teqb t (column cs 4)); [|now apply string_total]. destruct (string_total []) as (b & Eb & Lb); [constructor|cbn; lia|].
    exists b. split; [exact Eb|]. unfold string_size in *. cbn [length] in Lb. lia. }
  destruct (S _ S12 L12) as (b4 & E4 & N4). destruct (S _ S11 L11) as (b6 & E6 & N6). clear S.
  destruct (int_total (e_dic_id e) MF) as (b5 & E5 & N5).
  destruct (parse_splitinfo_total _ P15) as (ia & b7 & Ea & E7 & N7). destruct (parse_splitinfo_total _ P16) as (ib & b8 & Eb & E8 & N8).
  destruct (parse_splitinfo_total _ P17) as (ic & b9 & Ec & E9 & N9). destruct (array_total _ MY1 MY2) as (b10 & E10 & N10).
  unfold put_word_info. rewrite M4, M11, M12, MA, MB, MC, E1, E2, E3, E4, E5, E6. cbn [bind]. rewrite Ea. cbn [bind]. rewrite E7. cbn [bind]. rewrite Eb. cbn [bind].
  rewrite E8. cbn [bind]. rewrite Ec. cbn [bind]. rewrite E9. cbn [bind]. rewrite E10. cbn [bind]. eexists. split; [reflexivity|].
  rewrite !app_length. unfold row_size, array_size in *. cbn [map sum fold_right]. lia.
Qed.

Lemma write_infos_total l : forall rows out,
  Forall2 (fun cs e => good_row k py_int is_digit css cs /\ made cs e /\ 0 <= e_pos e < 32768) rows l ->
  Z.of_nat (f_pos out) + Z.of_nat (sum (map row_size rows)) < 2 ^ 31 ->
  exists out' os, write_infos k py_int is_digit (s_entries s) (s_table s) out l = Ok (out', os).
Proof.
  induction l as [|e l IH]; intros rows out F B; inversion F as [|x e' rows' l' (G & M & Bp) F' E1 E2]; subst; cbn [write_infos].
  - eauto.
  - cbn [map sum fold_right] in B. destruct (int_total (Z.of_nat (f_tell out))) as (o & Eo & _); [unfold in_int, f_tell; lia|].
    destruct (put_word_info_total x e G M Bp) as (b & Eb & Lb). rewrite Eo. cbn [bind]. rewrite Eb. cbn [bind].
    destruct (IH rows' (f_write out b) F') as (out' & os & E); [rewrite f_write_pos; unfold sum; lia|]. rewrite E. cbn [bind]. eauto.
Qed.

(** ** The table of word ids *)
Lemma wid_table_total keys : forall pos,
  Forall (fun kw => (length (snd kw) <= 255)%nat /\ snd kw <> [] /\ Forall (fun x => Z.of_nat x < 2 ^ 31) (snd kw)) keys ->
  exists kvs t, wid_table pos keys = Ok (kvs, t) /\ map fst kvs = map fst keys /\
    (length t <= 5 * sum (map (fun kw => length (snd kw)) keys))%nat /\
    Forall (fun kv => Z.of_nat pos <= snd kv < Z.of_nat (pos + length t)) kvs.
Proof.
  induction keys as [|(key, wids) keys IH]; intros pos F; cbn [wid_table].
  - exists [], []. repeat split; cbn; try lia; constructor.
  - inversion F as [|? ? (L & N & I) F']; subst. cbn [snd] in *. destruct (put_byte_total (Z.of_nat (length wids))) as (a & Ea & La); [lia|].
    destruct (put_all_total (fun w => put_int (Z.of_nat w)) (fun _ => 4%nat) wids) as (b & Eb & Lb).
    { intros x Hx. rewrite Forall_forall in I. specialize (I x Hx). destruct (int_total (Z.of_nat x)) as (b & E & L'); [unfold in_int; lia|]. exists b. split; [exact E|lia]. }
    rewrite sum_const in Lb. destruct (IH (pos + length (a ++ b))%nat F') as (kvs & t & E & M & Lt & V). rewrite Ea. cbn [bind]. rewrite Eb. cbn [bind].
    rewrite E. cbn [bind]. exists ((key, Z.of_nat pos) :: kvs), (a ++ b ++ t). split; [reflexivity|]. cbn [map fst]. split; [congruence|].
    rewrite !app_length in *. cbn [map sum fold_right snd] in *. assert (length wids <> 0)%nat by (destruct wids; [congruence|discriminate]). split; [unfold sum in *; lia|].
    constructor; [cbn [snd]; lia|]. eapply Forall_impl; [|exact V]. cbn beta. intros kv X. lia.
Qed.

Lemma keys_total : (forall h, (length (filter (same_headword h) css) <= 255)%nat) ->
  Forall (fun kw => (length (snd kw) <= 255)%nat /\ snd kw <> [] /\ Forall (fun x => Z.of_nat x < 2 ^ 31) (snd kw)) (s_keys s).
Proof.
  intros G. destruct (hs_ok _ _ H) as [_ SS L W]. rewrite Forall_forall in *. intros (key, ws) I. destruct (W _ I) as (S & B & N). cbn [snd] in *.
  split; [|split; [exact N|]].
  2: { rewrite Forall_forall in *. intros x Hx. specialize (B x Hx). rewrite entries_length in B. lia. }
  assert (K : forall w, In w ws -> has_key (s_entries s) w key). { intros w Hw. apply L. exists ws. auto. }
  destruct ws as [|w0 ws0] eqn:Ew; [congruence|]. rewrite <- Ew in *.
  destruct (K w0) as (e0 & h & _ & _ & Eh); [rewrite Ew; now left|].
  etransitivity; [|exact (G h)]. apply count_le; [now apply sorted_nodup|]. intros w Hw. destruct (K w Hw) as (e & h' & Ee & E1 & E2).
  assert (h' = h) by (eapply encode_inj; eauto). subst h'. destruct (row_of_entry w e Ee) as (cs & Ec & Me). exists cs. split; [exact Ec|].
  destruct Me as [Mh _ _ _ _ _ _ _ _ _ _ _ _]. rewrite E1 in Mh. unfold same_headword. destruct (teqb (column cs 1) [45; 49]) eqn:T; [discriminate|].
  destruct (list_eq_dec Z.eq_dec (column cs 0) h) as [_|X]; [|congruence]. destruct (list_eq_dec Z.eq_dec (column cs 1) [45; 49]) as [X|_]; [|reflexivity].
  rewrite X in T. discriminate.
Qed.

(** ** The grammar *)
Variable speeches : list (list text).
Hypothesis G : good_source k py_int is_digit css speeches.

Lemma pieces_eq_dec (a b : list text) : {a = b} + {a <> b}.
Proof. apply list_eq_dec. apply list_eq_dec. apply Z.eq_dec. Qed.

Lemma row_good cs : In cs css -> good_row k py_int is_digit css cs.
Proof. intros I. pose proof (gs_rows _ _ _ _ _ G) as X. rewrite Forall_forall in X. auto. Qed.
Lemma speech_parts cs : In cs css -> split_on comma (join_with comma (speech cs)) = speech cs.
Proof.
  intros I. apply split_join; [discriminate|]. eapply Forall_impl; [|exact (gr_speech _ _ _ _ _ (row_good cs I))]. cbn beta. intros t (_ & _ & X). exact X.
Qed.

Lemma table_sizes :
  (length (s_table s) <= length speeches)%nat /\
  (sum (map (fun x => speech_size (split_on comma x)) (s_table s)) <= sum (map speech_size speeches))%nat.
Proof.
  set (l := nodup pieces_eq_dec (map speech css)).
  assert (Nl : NoDup l) by apply NoDup_nodup.
  assert (Il : incl l speeches).
  { intros p Hp. apply nodup_In, in_map_iff in Hp as (cs & <- & Hc). pose proof (gs_speeches _ _ _ _ _ G) as X. rewrite Forall_forall in X. auto. }
  assert (It : incl (s_table s) (map (join_with comma) l)).
  { intros x Hx. destruct (hs_table _ _ H x Hx) as (cs & Hc & ->). apply in_map, nodup_In, in_map. exact Hc. }
  pose proof (hs_nodup _ _ H) as Nt. split.
  - etransitivity; [apply (NoDup_incl_length Nt It)|]. rewrite map_length. apply (NoDup_incl_length Nl Il).
  - etransitivity; [apply (sum_incl _ _ _ Nt It)|]. etransitivity; [|apply (sum_incl _ _ _ Nl Il)]. rewrite map_map.
    apply Nat.eq_le_incl. f_equal. apply map_ext_in. intros p Hp. apply nodup_In, in_map_iff in Hp as (cs & <- & Hc). now rewrite speech_parts.
Qed.

Lemma convert_postable_total : exists b, convert_postable (s_table s) = Ok b /\ (length b <= 2 + sum (map speech_size speeches))%nat.
Proof.
  destruct table_sizes as [T1 T2]. pose proof (gs_number _ _ _ _ _ G) as N.
  destruct (short_total (Z.of_nat (length (s_table s)))) as (a & Ea & La); [unfold in_short; lia|].
  destruct (put_all_total (fun pos => put_all put_string (split_on comma pos)) (fun x => speech_size (split_on comma x)) (s_table s)) as (b & Eb & Lb).
  { intros x Hx. destruct (hs_table _ _ H x Hx) as (cs & Hc & ->). rewrite speech_parts by assumption. apply put_all_total. intros t Ht.
    pose proof (gr_speech _ _ _ _ _ (row_good cs Hc)) as X. rewrite Forall_forall in X. destruct (X t Ht) as (A & B & _). now apply string_total. }
  unfold convert_postable. rewrite Ea. cbn [bind]. rewrite Eb. cbn [bind]. exists (a ++ b). split; [reflexivity|]. rewrite app_length. lia.
Qed.

Lemma matrix_total l r ms : good_matrix l r ms -> exists h m, convert_matrix ms = Ok (h, m) /\ length h = 4%nat /\ Z.of_nat (length m) <= 2 * (l * r).
Proof.
  intros (Eh & Bl & Br & F). unfold convert_matrix. rewrite Eh. destruct (short_total l) as (a & Ea & La); [unfold in_short; lia|].
  destruct (short_total r) as (b & Eb & Lb); [unfold in_short; lia|]. rewrite Ea. cbn [bind]. rewrite Eb. cbn [bind].
  assert (X : forall m0, Z.of_nat (length (f_data m0)) <= 2 * (l * r) -> exists m, foldM (matrix_line l) m0 (ms_lines ms) = Ok m /\ Z.of_nat (length (f_data m)) <= 2 * (l * r)).
  { clear - F Bl Br. induction F as [|line lines (i & j & c & -> & Bi & Bj & Sc) F IH]; intros m0 B; [exists m0; auto|]. cbn [foldM matrix_line].
    assert (Bc : 0 <= i + l * j /\ i + l * j < l * r) by nia. replace (2 * (i + l * j) <? 0) with false by (symmetry; apply Z.ltb_ge; lia).
    destruct (short_total c Sc) as (x & Ex & Lx). rewrite Ex. cbn [bind]. apply IH. cbn [f_seek f_data].
    pose proof (f_write_data (File (f_data m0) (Z.to_nat (2 * (i + l * j)))) x) as W. cbn [f_data f_pos] in W. unfold f_seek. lia. }
  destruct (X (File [] 0)) as (m & Em & Lm); [cbn [f_data length]; nia|]. rewrite Em. cbn [bind]. exists (a ++ b), (f_data m). split; [reflexivity|].
  split; [rewrite app_length; lia|exact Lm].
Qed.

Lemma write_grammar_total ms cells out :
  match ms with None => cells = 0 | Some m => exists l r, good_matrix l r m /\ cells = l * r end ->
  exists f, write_grammar (s_table s) ms out = Ok f /\ Z.of_nat (f_pos f) <= Z.of_nat (f_pos out) + 6 + Z.of_nat (sum (map speech_size speeches)) + 2 * cells.
Proof.
  intros M. destruct convert_postable_total as (b & Eb & Lb). unfold write_grammar. rewrite Eb. cbn [bind]. destruct ms as [m|].
  - destruct M as (l & r & GM & ->). destruct (matrix_total _ _ _ GM) as (h & x & E & Lh & Lx). rewrite E. cbn [bind]. eexists. split; [reflexivity|].
    rewrite !f_write_pos. lia.
  - subst cells. destruct (short_total 0) as (a & Ea & La); [unfold in_short; lia|]. rewrite Ea. cbn [bind]. eexists. split; [reflexivity|].
    rewrite !f_write_pos, app_length. lia.
Qed.

(** ** The lexicon *)
Variable trie_array : list (bytes * Z) -> res bytes.
Variable trie : nat.
Hypothesis trie_total : forall kvs,
  NoDup (map fst kvs) -> StronglySorted (fun a b => bytes_lt a b = true) (map fst kvs) ->
  Forall (fun kv => (exists cs, In cs css /\ ~ hidden cs /\ encode (column cs 0) = Ok (fst kv)) /\ 0 <= snd kv < 5 * Z.of_nat (length css)) kvs ->
  exists a, trie_array kvs = Ok a /\ (length a <= trie)%nat.

Lemma key_rows key : In key (map fst (s_keys s)) -> exists cs, In cs css /\ ~ hidden cs /\ encode (column cs 0) = Ok key.
Proof.
  intros I. apply in_map_iff in I as ((x, ws) & <- & I). destruct (hs_ok _ _ H) as [_ _ L W]. rewrite Forall_forall in W. destruct (W _ I) as (_ & _ & N). cbn [snd fst] in *.
  destruct ws as [|w ws]; [congruence|]. destruct (proj1 (L x w)) as (e & h & Ee & E1 & E2); [exists (w :: ws); split; [exact I|now left]|].
  destruct (row_of_entry w e Ee) as (cs & Ec & Me). exists cs. split; [eapply nth_error_In; exact Ec|]. destruct Me as [Mh _ _ _ _ _ _ _ _ _ _ _ _].
  unfold hidden. destruct (teqb (column cs 1) [45; 49]) eqn:T; [congruence|]. split; [intros X; rewrite X in T; discriminate|congruence].
Qed.

Lemma put_params_total cs e : good_row k py_int is_digit css cs -> made cs e -> exists b, put_params e = Ok b /\ (length b <= 6)%nat.
Proof.
  intros GR M. pose proof (gr_numbers _ _ _ _ _ GR) as GN. destruct M as [_ M1 M2 M3 _ _ _ _ _ _ _ _ _].
  inversion GN as [|? ? (l & El & Sl) GN1]; subst. inversion GN1 as [|? ? (r & Er & Sr) GN2]; subst. inversion GN2 as [|? ? (c & Ec & Sc) _]; subst.
  assert (e_left e = l) by congruence. assert (e_right e = r) by congruence. assert (e_cost e = c) by congruence. subst l r c.
  destruct (short_total _ Sl) as (x & Ex & Lx). destruct (short_total _ Sr) as (y & Ey & Ly). destruct (short_total _ Sc) as (z & Ez & Lz).
  unfold put_params. rewrite Ex. cbn [bind]. rewrite Ey. cbn [bind]. rewrite Ez. cbn [bind]. eexists. split; [reflexivity|]. rewrite !app_length. lia.
Qed.

Lemma all_good : Forall2 (fun cs e => good_row k py_int is_digit css cs /\ made cs e /\ 0 <= e_pos e < 32768) css (s_entries s).
Proof.
  pose proof (hs_entries _ _ H) as HE. pose proof (gs_rows _ _ _ _ _ G) as GR. pose proof (proj1 table_sizes) as T. pose proof (gs_number _ _ _ _ _ G) as N.
  assert (B : (length (s_table s) + base k <= length speeches + base k)%nat) by lia. change (match k with SystemDic => 0%nat | UserDic g _ _ => length (g_pos g) end) with (base k) in N.
  clear - HE GR B N. revert GR. generalize css at 1 3. intros css0 GR. induction HE as [|cs e l1 l2 (M & P) HE IH]; constructor.
  - inversion GR; subst. split; [assumption|]. split; [exact M|]. apply get_posid_spec in P as (P & _). lia.
  - apply IH. now inversion GR.
Qed.

Lemma write_lexicon_total out :
  4 * (Z.of_nat (f_pos out) + 12 + Z.of_nat trie + 11 * Z.of_nat (length css)) + Z.of_nat (length css) + Z.of_nat (sum (map row_size css)) < 2 ^ 31 ->
  exists f, write_lexicon k py_int is_digit trie_array s out = Ok f.
Proof.
  intros B. pose proof entries_length as EL. destruct (wid_table_total (s_keys s) O (keys_total (gs_same _ _ _ _ _ G))) as (kvs & t & Ew & Mf & Lt & V).
  pose proof (hs_total _ _ H) as HT. destruct (hs_ok _ _ H) as [_ SS _ _].
  assert (Sk : StronglySorted (fun a b => bytes_lt a b = true) (map fst (s_keys s))).
  { clear - SS. induction SS as [|x l S IH F]; constructor; [exact IH|]. apply Forall_map. exact F. }
  destruct (trie_total kvs) as (a & Ea & La).
  { rewrite Mf. clear - Sk. induction Sk as [|x l S IH F]; constructor; [|exact IH]. intros I. rewrite Forall_forall in F. specialize (F x I). rewrite bytes_lt_irrefl in F. discriminate. }
  { now rewrite Mf. }
  { rewrite Forall_forall in *. intros kv I. split; [|specialize (V kv I); lia]. apply key_rows. rewrite <- Mf. now apply in_map. }
  unfold write_lexicon. rewrite Ew. cbn [bind]. rewrite Ea. cbn [bind].
  assert (D : (length a / 4 <= length a)%nat) by (apply Nat.div_le_upper_bound; lia).
  destruct (int_total (Z.of_nat (length a / 4))) as (b1 & E1 & L1); [unfold in_int; lia|]. rewrite E1. cbn [bind].
  destruct (int_total (Z.of_nat (length t))) as (b2 & E2 & L2); [unfold in_int; lia|]. rewrite E2. cbn [bind].
  destruct (int_total (Z.of_nat (length (s_entries s)))) as (b3 & E3 & L3); [unfold in_int; lia|]. rewrite E3. cbn [bind].
  destruct (put_all_total put_params (fun _ => 6%nat) (s_entries s)) as (ps & Ep & Lp).
  { intros e I. destruct (In_nth_error _ _ I) as (i & Ei). destruct (row_of_entry i e Ei) as (cs & Ec & Me).
    apply (put_params_total cs e); [apply row_good; eapply nth_error_In; exact Ec|exact Me]. }
  rewrite sum_const in Lp. rewrite Ep. cbn [bind]. unfold write_wordinfo.
  set (o := f_write _ _). assert (Po : (f_pos o <= f_pos out + 12 + trie + 11 * length css)%nat).
  { unfold o. rewrite !f_write_pos. destruct (s_entries s) eqn:Es; [cbn [length] in *; lia|]. rewrite <- Es in *. rewrite app_length. lia. }
  destruct (write_infos_total (s_entries s) css (f_seek o (f_tell o * 4 + length (s_entries s))) all_good) as (out' & os & E).
  { cbn [f_seek f_pos]. unfold f_tell. lia. }
  rewrite E. cbn [bind]. eauto.
Qed.
End writing.
End accept.
