(** The lexicon section of a built dictionary, and the whole file. *)
From Coq Require Import List ZArith Lia Bool Arith Sorted.
From Verif Require Import Base Utf8 M_Builder M_Lattice M_Tokenizer M_Bytes P_Bytes M_DicReader M_DicBuilder P_DicFormat P_DicWrite P_DicOpen
  P_DicGrammar P_DicSource.
Import ListNotations.
Open Scope Z_scope.

(** ** Word parameters *)
Definition params_of (e : entry) : list Z := [e_left e; e_right e; e_cost e].

Lemma put_params_ok e b : put_params e = Ok b -> length b = 6%nat /\ Forall short_range (params_of e) /\
  forall r, shorts (b ++ r) = (l <- shorts r ;; Ok (params_of e ++ l)).
Proof.
  unfold put_params. intros H. apply bind_ok in H as (a & Ha & H). apply bind_ok in H as (b' & Hb & H). apply bind_ok in H as (c & Hc & [= <-]).
  apply put_short_ok in Ha as (La & Ua & Ra), Hb as (Lb & Ub & Rb), Hc as (Lc & Uc & Rc).
  split; [rewrite !app_length; lia|]. split; [repeat constructor; unfold short_range; lia|]. intros r.
  rewrite <- !app_assoc, !shorts_app by auto. rewrite Ua, Ub, Uc. destruct (shorts r); reflexivity.
Qed.

Lemma put_all_params l b : put_all put_params l = Ok b ->
  length b = (6 * length l)%nat /\ shorts b = Ok (concat (map params_of l)) /\ Forall short_range (concat (map params_of l)).
Proof.
  revert b. induction l as [|e l IH]; cbn [put_all]; intros b H.
  - injection H as <-. repeat split; constructor.
  - apply bind_ok in H as (x & Hx & H). apply bind_ok in H as (y & Hy & [= <-]).
    destruct (put_params_ok _ _ Hx) as (Lx & Rx & Sx). destruct (IH _ Hy) as (Ly & Sy & Ry).
    split; [rewrite app_length; cbn [length]; lia|]. rewrite Sx, Sy. cbn [bind map concat]. split; [reflexivity|]. apply Forall_app. auto.
Qed.

Lemma params_nth l i e j : nth_error l i = Some e -> (j < 3)%nat ->
  nth_error (concat (map params_of l)) (3 * i + j) = nth_error (params_of e) j.
Proof.
  revert i. induction l as [|x l IH]; intros [|i] H Hj; try discriminate; cbn [map concat nth_error] in *.
  - injection H as ->. rewrite Nat.mul_0_r. rewrite nth_error_app1; [reflexivity|cbn; lia].
  - rewrite nth_error_app2 by (cbn; lia). cbn [length params_of]. rewrite <- (IH i H Hj). f_equal. lia.
Qed.

(** ** The word-id table *)
Lemma wid_table_ok keys : forall pos kvs t, wid_table pos keys = Ok (kvs, t) ->
  forall pre, length pre = pos ->
  Forall2 (fun kw kv => fst kw = fst kv /\ 0 <= snd kv /\ wid_table_get (pre ++ t) (snd kv) = Ok (map Z.of_nat (snd kw))) keys kvs.
Proof.
  induction keys as [|(key, ws) keys IH]; intros pos kvs t H pre Hp; cbn [wid_table] in H.
  - injection H as <- <-. constructor.
  - apply bind_ok in H as (a & Ha & H). apply bind_ok in H as (b & Hb & H). apply bind_ok in H as ((kvs' & t') & Hr & [= <- <-]).
    apply put_byte_ok in Ha as [-> Ra].
    constructor.
    + cbn [fst snd]. split; [reflexivity|]. split; [lia|]. unfold wid_table_get. rewrite Nat2Z.id. unfold get.
      rewrite nth_error_app2 by lia. replace (pos - length pre)%nat with O by lia. cbn [nth_error app bind].
      destruct (uints_ok ws b t' Hb) as [U L].
      replace (pos + 1)%nat with (length (pre ++ [Z.of_nat (length ws)])) by (rewrite app_length; cbn; lia).
      replace (pre ++ Z.of_nat (length ws) :: b ++ t') with ((pre ++ [Z.of_nat (length ws)]) ++ b ++ t') by (rewrite <- app_assoc; reflexivity).
      rewrite skipn_exact by reflexivity. rewrite Nat2Z.id.
      replace (length (b ++ t') <? 4 * length ws)%nat with false by (symmetry; apply Nat.ltb_ge; rewrite app_length; lia).
      now rewrite U.
    + specialize (IH _ _ _ Hr (pre ++ [Z.of_nat (length ws)] ++ b)).
      rewrite <- !app_assoc in IH. apply IH. rewrite !app_length. cbn [length app]. lia.
Qed.

(** ** The double array, which is not part of /repo *)
Definition is_prefix (a b : bytes) : bool := list_eqb Z.eqb a (firstn (length a) b).

(** dartsclone: an array built from sorted distinct keys finds the values of the keys
    that are prefixes, the shortest first; its length is a multiple of 4. *)
Definition trie_contract (search : bytes -> bytes -> list (Z * nat)) (trie_array : list (bytes * Z) -> res bytes) : Prop :=
  forall kvs arr, StronglySorted (fun a b => bytes_lt (fst a) (fst b) = true) kvs -> trie_array kvs = Ok arr ->
  (length arr mod 4 = 0)%nat /\
  forall key, search arr key = map (fun kv => (snd kv, length (fst kv))) (filter (fun kv => is_prefix (fst kv) key) kvs).

Section lexicon.
Variable k : kind.
Variable py_int : text -> res Z.
Variable is_digit : Z -> bool.
Variable search : bytes -> bytes -> list (Z * nat).
Variable trie_array : list (bytes * Z) -> res bytes.
Hypothesis contract : trie_contract search trie_array.

(** The lexicon [lx] is what the source [s] says. *)
Record lexicon_of (s : source) (lx : lexicon) : Prop := {
  lo_size : lx_size lx = length (s_entries s);
  lo_params : lx_params lx = concat (map params_of (s_entries s));
  lo_params_range : Forall short_range (lx_params lx);
  lo_keys : exists kvs, (forall key, search (lx_trie lx) key = map (fun kv => (snd kv, length (fst kv))) (filter (fun kv => is_prefix (fst kv) key) kvs)) /\
    Forall2 (fun kw kv => fst kw = fst kv /\ 0 <= snd kv /\ wid_table_get (lx_wids lx) (snd kv) = Ok (map Z.of_nat (snd kw))) (s_keys s) kvs;
  lo_infos : forall i e, nth_error (s_entries s) i = Some e ->
    exists b t t' o p, put_word_info k py_int is_digit (s_entries s) t e = Ok (b, t') /\ put_int (Z.of_nat p) = Ok o /\
      At (lx_data lx) (lx_infos lx + 4 * i) o /\ At (lx_data lx) p b;
}.

Lemma Forall2_sorted keys kvs (P : bytes * list nat -> bytes * Z -> Prop) :
  (forall a b, P a b -> fst a = fst b) -> Forall2 P keys kvs -> StronglySorted key_lt keys ->
  StronglySorted (fun a b => bytes_lt (fst a) (fst b) = true) kvs.
Proof.
  intros HP. induction 1 as [|a b keys kvs Hab F IH]; intros S; [constructor|]. inversion S as [|? ? S' Fa]; subst.
  constructor; auto. clear - HP Hab F Fa. induction F as [|x y keys kvs Hxy F IH]; [constructor|].
  inversion Fa; subst. constructor; auto. rewrite <- (HP _ _ Hab), <- (HP _ _ Hxy). auto.
Qed.

(** The word parameters, with the number of the entries in front if there are any *)
Lemma read_params_ok D (l : list entry) b3 ps rest pre p :
  put_int (Z.of_nat (length l)) = Ok b3 -> put_all put_params l = Ok ps ->
  D = pre ++ (match l with [] => [] | _ => b3 ++ ps end) ++ rest -> (l = [] -> rest = []) -> (p <= length D)%nat ->
  prun D p (read_params (length pre)) = (p, Ok (length l, concat (map params_of l))).
Proof.
  intros Hb3 Hps ED E0 Hp. destruct (put_all_params _ _ Hps) as (Lps & Sps & _).
  pose proof (put_int_ok _ _ Hb3) as (L3 & _). pose proof (put_int_unsigned _ _ Hb3 ltac:(lia)) as U3.
  assert (LD : (length pre <= length D)%nat) by (rewrite ED, app_length; lia).
  unfold read_params. rewrite prun_bind. cbn [ptell prun]. rewrite prun_bind. unfold pseek. rewrite prun_seek by lia. cbn [prun]. rewrite Nat2Z.id.
  destruct l as [|e l].
  - rewrite (E0 eq_refl) in ED. cbn [app] in ED. rewrite app_nil_r in ED. subst D.
    rewrite prun_bind. unfold pread. cbn [prun]. rewrite skipn_all. cbn [firstn length unle Z.to_nat]. rewrite Nat.add_0_r.
    rewrite prun_bind. cbn [ptell prun]. rewrite prun_bind. unfold psub. cbn [prun].
    rewrite slice_nil by (cbn; lia). rewrite prun_bind. cbn [shorts plift prun].
    rewrite prun_bind, prun_seek by lia. cbn [prun]. rewrite Nat2Z.id. reflexivity.
  - set (l' := e :: l) in *.
    assert (A0 : At D (length pre) (b3 ++ ps)) by (exists pre, rest; rewrite ED; auto).
    apply At_app in A0 as [A6 A7]. rewrite L3 in *.
    rewrite prun_bind. unfold pread. rewrite (prun_read _ _ b3) by auto. cbn [prun]. rewrite U3, Nat2Z.id.
    rewrite prun_bind. cbn [ptell prun]. rewrite prun_bind. unfold psub. cbn [prun].
    replace (length l' * 6)%nat with (length ps) by lia.
    rewrite (At_slice _ _ _ A7). rewrite prun_bind, Sps. cbn [plift prun].
    rewrite prun_bind, prun_seek by lia. cbn [prun]. rewrite Nat2Z.id. reflexivity.
Qed.

Lemma write_lexicon_reads s d f :
  write_lexicon k py_int is_digit trie_array s (File d (length d)) = Ok f -> StronglySorted key_lt (s_keys s) ->
  exists b, f_data f = d ++ b /\
    forall p syn, (p <= length (f_data f))%nat ->
    exists p' lx, prun (f_data f) p (read_lexicon (f_data f) (length d) syn) = (p', Ok lx) /\
      lexicon_of s lx /\ lx_data lx = f_data f /\ lx_syn lx = syn.
Proof.
  intros H S. unfold write_lexicon in H.
  apply bind_ok in H as ((kvs & wids) & Hw & H). apply bind_ok in H as (array & Ht & H). apply bind_ok in H as (b1 & Hb1 & H).
  apply bind_ok in H as (b2 & Hb2 & H). apply bind_ok in H as (b3 & Hb3 & H). apply bind_ok in H as (ps & Hps & H).
  pose proof (wid_table_ok _ _ _ _ Hw [] eq_refl) as W. cbn [app] in W.
  assert (Sk : StronglySorted (fun a b => bytes_lt (fst a) (fst b) = true) kvs) by (eapply Forall2_sorted; [|exact W|exact S]; intros a b (E & _); exact E).
  destruct (contract _ _ Sk Ht) as (A4 & Hs).
  rewrite (f_write_end (File d (length d))) in H by reflexivity. cbn [f_data] in H.
  do 4 (rewrite (f_write_end (File _ _)) in H by reflexivity; cbn [f_data] in H).
  set (pb := match s_entries s with [] => [] | _ => b3 ++ ps end) in H.
  set (d' := ((((d ++ b1) ++ array) ++ b2) ++ wids) ++ pb) in H.
  destruct (put_all_params _ _ Hps) as (Lps & Sps & Rps).
  pose proof (put_int_ok _ _ Hb1) as (L1 & _). pose proof (put_int_unsigned _ _ Hb1 ltac:(lia)) as U1.
  pose proof (put_int_ok _ _ Hb2) as (L2 & _). pose proof (put_int_unsigned _ _ Hb2 ltac:(lia)) as U2.
  pose proof (put_int_ok _ _ Hb3) as (L3 & _). pose proof (put_int_unsigned _ _ Hb3 ltac:(lia)) as U3.
  assert (Lpb : s_entries s <> [] -> length pb = (4 + 6 * length (s_entries s))%nat).
  { unfold pb. destruct (s_entries s); [congruence|]. intros _. rewrite app_length. lia. }
  assert (Hd' : length d' = (length d + 4 + length array + 4 + length wids + length pb)%nat).
  { unfold d'. rewrite !app_length. lia. }
  assert (Hn : (length (s_entries s) <= length d')%nat).
  { destruct (s_entries s) as [|e0 l0] eqn:Es; [cbn; lia|]. rewrite Hd', Lpb by discriminate. lia. }
  destruct (write_wordinfo_spec _ _ _ _ _ _ _ H Hn) as (bs & offs & pad & _ & _ & Fd & _ & Fe).
  pose proof (info_at _ _ _ _ _ _ _ H Hn) as IA.
  exists (b1 ++ array ++ b2 ++ wids ++ pb ++ offs ++ pad ++ concat bs). split.
  { rewrite Fd. unfold d'. now rewrite <- !app_assoc. }
  intros p syn Hp. remember (f_data f) as D eqn:ED.
  assert (A0 : At D (length d) (b1 ++ array ++ b2 ++ wids)).
  { rewrite Fd. unfold d'. rewrite <- !app_assoc. exists d, (pb ++ offs ++ pad ++ concat bs). rewrite <- !app_assoc. auto. }
  apply At_app in A0 as [A1 A0]. apply At_app in A0 as [A2 A0]. apply At_app in A0 as [A3 A5].
  rewrite L1 in *. rewrite L2 in *.
  assert (E4 : (4 * (length array / 4))%nat = length array).
  { pose proof (Nat.div_mod (length array) 4 ltac:(lia)). lia. }
  pose proof (At_length _ _ _ A5) as LD.
  unfold read_lexicon. rewrite prun_bind. unfold pseek. rewrite prun_seek by lia. cbn [prun]. rewrite Nat2Z.id.
  rewrite prun_bind. unfold pread. rewrite (prun_read _ _ b1) by auto. cbn [prun]. rewrite U1, Nat2Z.id, E4.
  rewrite prun_bind. unfold psub. cbn [prun]. rewrite (At_slice _ _ _ A2).
  rewrite prun_bind. unfold read_wid_table. rewrite prun_bind. unfold pseek. rewrite prun_seek by lia. cbn [prun]. rewrite Nat2Z.id.
  rewrite prun_bind. unfold pread. rewrite (prun_read _ _ b2) by auto. cbn [prun]. rewrite U2, Nat2Z.id.
  rewrite prun_bind. unfold psub. cbn [prun]. rewrite (At_slice _ _ _ A5).
  rewrite prun_bind.
  assert (P0 := read_params_ok D (s_entries s) b3 ps (offs ++ pad ++ concat bs) (d ++ b1 ++ array ++ b2 ++ wids) (length d + 4 + length array + 4) Hb3 Hps).
  rewrite !app_length, L1, L2 in P0. replace (length d + (4 + (length array + (4 + length wids))))%nat with (length d + 4 + length array + 4 + length wids)%nat in P0 by lia.
  rewrite P0; clear P0; [|rewrite Fd; unfold d', pb; now rewrite <- !app_assoc|exact Fe|lia].
  cbn [prun].
  eexists _, _. split; [reflexivity|]. split; [|split; reflexivity].
  constructor; cbn [lx_size lx_params lx_trie lx_wids lx_data lx_infos]; auto.
  - exists kvs. auto.
  - intros i e Hi. destruct (IA i e Hi) as (b & t & t' & o & q & I1 & I2 & I3 & I4).
    exists b, t, t', o, q. split; [auto|]. split; [auto|]. split; [|auto].
    assert (E : s_entries s <> []) by (intros E; rewrite E in Hi; destruct i; discriminate).
    change (At D (length d' + 4 * i) o) in I3. rewrite Hd', (Lpb E) in I3.
    replace (length d + 4 + length array + 4 + length wids + 4 + 6 * length (s_entries s) + 4 * i)%nat with
      (length d + 4 + length array + 4 + length wids + (4 + 6 * length (s_entries s)) + 4 * i)%nat by lia. exact I3.
Qed.

(** ** What the accessors return *)
Lemma lexicon_params s lx i e : lexicon_of s lx -> nth_error (s_entries s) i = Some e ->
  lx_left_id lx (Z.of_nat i) = Ok (e_left e) /\ lx_right_id lx (Z.of_nat i) = Ok (e_right e) /\ lx_cost lx (Z.of_nat i) = Ok (e_cost e).
Proof.
  intros L Hi. unfold lx_left_id, lx_right_id, lx_cost. rewrite (lo_params _ _ L), Nat2Z.id. unfold get.
  rewrite (params_nth _ _ _ 1 Hi), (params_nth _ _ _ 2 Hi) by lia.
  replace (3 * i)%nat with (3 * i + 0)%nat by lia. rewrite (params_nth _ _ _ 0 Hi) by lia. auto.
Qed.

Lemma is_prefix_spec a b : is_prefix a b = true <-> exists r, b = a ++ r.
Proof.
  unfold is_prefix. rewrite (teqb_eq a (firstn (length a) b) : list_eqb Z.eqb _ _ = true <-> _). split.
  - intros E. exists (skipn (length a) b). rewrite E at 1. symmetry. apply firstn_skipn.
  - intros [r ->]. now rewrite firstn_exact.
Qed.

(** The lookup of a lexicon that is what its source says *)
Definition keys_of (s : source) (lx : lexicon) : Prop :=
  exists kvs, (forall key, search (lx_trie lx) key = map (fun kv => (snd kv, length (fst kv))) (filter (fun kv => is_prefix (fst kv) key) kvs)) /\
    Forall2 (fun kw kv => fst kw = fst kv /\ 0 <= snd kv /\ wid_table_get (lx_wids lx) (snd kv) = Ok (map Z.of_nat (snd kw))) (s_keys s) kvs.
Lemma keys_lookup s lx t off : keys_of s lx ->
  lx_lookup search lx t off =
    (concat (map (fun kw => map (fun w => (Z.of_nat w, (length (fst kw) + off)%nat)) (snd kw))
       (filter (fun kw => is_prefix (fst kw) (skipn off t)) (s_keys s))), None).
Proof.
  intros L. destruct L as (kvs & Hs & F). unfold lx_lookup. rewrite Hs. clear Hs.
  induction F as [|(key, ws) (key', v) keys kvs (E & Hv & G) F IH]; [reflexivity|]. cbn [fst snd] in E, G. subst key'.
  cbn [filter fst]. destruct (is_prefix key (skipn off t)); [|exact IH].
  cbn [map concat fst snd]. rewrite G. rewrite IH. rewrite map_map. reflexivity.
Qed.

Lemma lexicon_lookup s lx t off : lexicon_of s lx ->
  lx_lookup search lx t off =
    (concat (map (fun kw => map (fun w => (Z.of_nat w, (length (fst kw) + off)%nat)) (snd kw))
       (filter (fun kw => is_prefix (fst kw) (skipn off t)) (s_keys s))), None).
Proof. intros L. apply keys_lookup, (lo_keys _ _ L). Qed.

(** A word is found iff an entry has that stretch of the text as its headword. *)
Lemma keys_lookup_iff s lx t off w e : keys_of s lx -> source_ok s -> (off <= length t)%nat ->
  In (w, e) (fst (lx_lookup search lx t off)) <->
  exists i, w = Z.of_nat i /\ (off <= e <= length t)%nat /\ has_key (s_entries s) i (slice t off e).
Proof.
  intros L O Ho. rewrite (keys_lookup _ _ _ _ L). cbn [fst]. rewrite in_concat. split.
  - intros (l & Hl & Hin). apply in_map_iff in Hl as ((key & ws) & <- & Hk). apply filter_In in Hk as [Hk P].
    cbn [fst snd] in *. apply in_map_iff in Hin as (i & [= <- <-] & Hi). exists i. split; [reflexivity|].
    apply is_prefix_spec in P as [r Er].
    assert (Lk : (length key + off <= length t)%nat).
    { assert (X : length (skipn off t) = (length key + length r)%nat) by (rewrite Er; apply app_length). rewrite skipn_length in X. lia. }
    split; [lia|]. apply (so_listed _ O). exists ws. split; auto.
    replace (slice t off (length key + off)) with key; auto.
    unfold slice. rewrite <- (firstn_skipn off t) at 1. rewrite Er.
    rewrite firstn_app, firstn_firstn, firstn_length. replace (length key + off - Nat.min off (length t))%nat with (length key) by lia.
    rewrite firstn_exact by auto. replace (Nat.min (length key + off) off) with off by lia.
    rewrite skipn_exact; [reflexivity|]. rewrite firstn_length. lia.
  - intros (i & -> & He & HK). apply (so_listed _ O) in HK as (ws & Hk & Hi).
    eexists. split; [apply in_map_iff; eexists; split; [reflexivity|apply filter_In; split; [exact Hk|]]|].
    + cbn [fst]. apply is_prefix_spec. exists (skipn e t). rewrite <- (firstn_skipn e t) at 1.
      rewrite skipn_app. unfold slice. f_equal. rewrite firstn_length. replace (off - Nat.min e (length t))%nat with 0%nat by lia. reflexivity.
    + cbn [fst snd]. apply in_map_iff. exists i. split; auto. f_equal. unfold slice. rewrite skipn_length, firstn_length. lia.
Qed.

Lemma lookup_iff s lx t off w e : lexicon_of s lx -> source_ok s -> (off <= length t)%nat ->
  In (w, e) (fst (lx_lookup search lx t off)) <->
  exists i, w = Z.of_nat i /\ (off <= e <= length t)%nat /\ has_key (s_entries s) i (slice t off e).
Proof. intros L. apply keys_lookup_iff, (lo_keys _ _ L). Qed.

Lemma lookup_nodup s lx t off : lexicon_of s lx -> source_ok s -> NoDup (fst (lx_lookup search lx t off)) /\ snd (lx_lookup search lx t off) = None.
Proof.
  intros L O. rewrite (lexicon_lookup _ _ _ _ L). cbn [fst snd]. split; [|reflexivity].
  pose proof (so_sorted _ O) as S. pose proof (so_wids _ O) as W. pose proof (so_listed _ O) as LI.
  assert (U : forall key key' ws ws' i, In (key, ws) (s_keys s) -> In (key', ws') (s_keys s) -> In i ws -> In i ws' -> key = key').
  { intros key key' ws ws' i H H' Hi Hi'.
    destruct (proj1 (LI key i) (ex_intro _ ws (conj H Hi))) as (e & h & E & Eh & Ek).
    destruct (proj1 (LI key' i) (ex_intro _ ws' (conj H' Hi'))) as (e' & h' & E' & Eh' & Ek'). congruence. }
  clear L O LI. induction (s_keys s) as [|(key, ws) keys IH]; [constructor|].
  inversion S as [|? ? S' Fk]; subst. inversion W as [|? ? (Wa & _) W']; subst. cbn [snd] in *.
  specialize (IH S' W' (fun a b c d x H1 H2 => U a b c d x (or_intror H1) (or_intror H2))).
  cbn [filter]. destruct (is_prefix _ _); [|exact IH]. cbn [map concat fst snd].
  assert (ND : forall a b : list (Z * nat), NoDup a -> NoDup b -> (forall x, In x a -> ~ In x b) -> NoDup (a ++ b)).
  { clear. induction a; intros b Ha Hb D; cbn [app]; auto. inversion Ha; subst. constructor.
    - intros X. apply in_app_or in X as [X|X]; [auto|]. apply (D a); [now left|auto].
    - apply IHa; auto. intros x Hx. apply D. now right. }
  apply ND; auto.
  - clear - Wa. induction Wa as [|x l S IH F]; cbn [map]; constructor; auto.
    intros X. apply in_map_iff in X as (y & [= E] & Hy). rewrite Forall_forall in F. apply F in Hy. lia.
  - intros (w, e) Hx Hy. apply in_map_iff in Hx as (i & [= <- <-] & Hi).
    apply in_concat in Hy as (l & Hl & Hy). apply in_map_iff in Hl as ((key', ws') & <- & Hk'). apply filter_In in Hk' as [Hk' _].
    cbn [fst snd] in Hy. apply in_map_iff in Hy as (j & [= E1 E2] & Hj). assert (i = j) by lia. subst j.
    assert (key = key') by (eapply (U key key' ws ws' i); eauto; [now left|now right]). subst key'.
    rewrite Forall_forall in Fk. apply Fk in Hk'. unfold key_lt in Hk'. cbn [fst] in Hk'. rewrite bytes_lt_irrefl in Hk'. discriminate.
Qed.
End lexicon.
