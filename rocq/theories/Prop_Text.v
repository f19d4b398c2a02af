(** Properties C01-C10: rewriting the input text and the accessors of the
    built input text.  Each theorem is stated with S_Text only; the proofs are in
    P_Builder, P_InputText, P_Accessors. *)
From Coq Require Import List ZArith Lia Bool Arith.
From Verif Require Import Base Utf8 M_Builder M_InputText S_Text P_Builder P_InputText P_Accessors.
Import ListNotations.

(** [edited t bd]: [bd] is what a fresh builder for [t] has become after some
    sequence of successful [replace] calls that begin inside the text and insert
    a non-empty string. *)
Inductive edited (t : text) : builder -> Prop :=
| ed_fresh : edited t (builder_init t)
| ed_replace bd begin end_ s bd' :
    edited t bd -> (begin < Z.of_nat (length (b_mod bd)))%Z -> s <> [] ->
    replace bd begin end_ s = Ok bd' -> edited t bd'.

Lemma edited_rewritten t bd : edited t bd -> rewritten t bd.
Proof. induction 1; econstructor; eauto. Qed.

Lemma edited_wf t bd : edited t bd -> builder_wf t bd.
Proof. intros H. apply rewritten_wf, edited_rewritten, H. Qed.

(** ** C01 *)
Theorem C01_map_invariant (t : text) (bd : builder) :
  edited t bd ->
  b_orig bd = t /\ position_map (b_m2o bd) (length (b_mod bd)) (length t).
Proof. exact (edited_wf t bd). Qed.
Print Assumptions C01_map_invariant.

(* "あいう" -> replace "い" by "xyz", then "あx" by "q" : a shrinking and a growing edit *)
Example C01_nonvacuous :
  exists bd, edited [0x3042; 0x3044; 0x3046]%Z bd /\
    b_mod bd = [113; 121; 122; 0x3046]%Z /\ b_m2o bd = [0; 2; 2; 2; 3].
Proof.
  eexists. split; [|split].
  - eapply ed_replace with (begin := 0%Z) (end_ := 2%Z) (s := [113]%Z).
    + eapply ed_replace with (begin := 1%Z) (end_ := 2%Z) (s := [120; 121; 122]%Z).
      * apply ed_fresh.
      * simpl; lia.
      * discriminate.
      * vm_compute; reflexivity.
    + simpl; lia.
    + discriminate.
    + vm_compute; reflexivity.
  - reflexivity.
  - reflexivity.
Qed.

(** ** C02 *)
(** Inside the text, a call with a non-empty string succeeds iff
    [0 <= begin < end]; otherwise it raises IndexError or AttributeError; on
    success the text and the map are changed exactly in [begin, end). *)
Theorem C02_replace_exact (t : text) (bd : builder) (begin end_ : Z) (s : text) :
  edited t bd -> s <> [] -> (begin < Z.of_nat (length (b_mod bd)))%Z ->
  let b := Z.to_nat begin in
  let e := min (Z.to_nat end_) (length (b_mod bd)) in
  if ((0 <=? begin) && (begin <? end_))%Z then
    exists bd' pb pe,
      replace bd begin end_ s = Ok bd' /\
      b_mod bd' = firstn b (b_mod bd) ++ s ++ skipn e (b_mod bd) /\
      nth_error (b_m2o bd) b = Some pb /\ nth_error (b_m2o bd) e = Some pe /\
      b_m2o bd' = firstn b (b_m2o bd) ++ pb :: repeat pe (length s - 1) ++ skipn e (b_m2o bd) /\
      b_orig bd' = b_orig bd
  else replace bd begin end_ s = Err (if (0 <=? begin) && (begin =? end_) then EAttribute else EIndex)%Z.
Proof.
  intros He Hs Hb b e.
  destruct (Z.leb_spec 0 begin) as [H0|H0]; cbn [andb].
  - destruct (Z.ltb_spec begin end_) as [H1|H1].
    + destruct (replace_legal t bd begin end_ s (edited_wf _ _ He) ltac:(lia) Hb Hs)
        as (pb & pe & E1 & E2 & E3).
      eexists _, pb, pe. split; [exact E3|]. cbn [b_mod b_m2o b_orig].
      repeat split; auto. symmetry. apply (edited_wf _ _ He).
    + unfold replace.
      destruct (Z.ltb_spec begin 0); [lia|].
      destruct (Z.ltb_spec (Z.of_nat (length (b_mod bd))) begin); [lia|].
      destruct (Z.ltb_spec end_ begin), (Z.eqb_spec begin end_); try lia; reflexivity.
  - unfold replace. destruct (Z.ltb_spec begin 0); [reflexivity|lia].
Qed.
Print Assumptions C02_replace_exact.

(** Beyond the end [replace] raises IndexError. *)
Theorem C02_begin_out_of_range (bd : builder) (begin end_ : Z) (s : text) :
  (Z.of_nat (length (b_mod bd)) < begin)%Z -> replace bd begin end_ s = Err EIndex.
Proof.
  intros H. unfold replace.
  destruct (Z.ltb_spec begin 0); [reflexivity|].
  destruct (Z.ltb_spec (Z.of_nat (length (b_mod bd))) begin); [reflexivity|lia].
Qed.
Print Assumptions C02_begin_out_of_range.

Example C02_nonvacuous :
  replace (builder_init [97; 98; 99]%Z) 1 99 [120; 121; 122]%Z
  = Ok {| b_orig := [97; 98; 99]%Z; b_mod := [97; 120; 121; 122]%Z; b_m2o := [0; 1; 3; 3; 3] |}.
Proof. vm_compute. reflexivity. Qed.

(** ** C03 *)
(** Deleting the last character makes the end of the original unreachable, and a
    deletion in the middle attributes the deleted text to nobody: the end entry
    of the map is 1 although the original has 2 characters. *)
Theorem C03_deletion_refuted :
  exists (t : text) (bd' : builder),
    replace (builder_init t) 1 2 [] = Ok bd' /\
    nth_error (b_m2o bd') (length (b_mod bd')) = Some 1 /\ length t = 2 /\
    ~ position_map (b_m2o bd') (length (b_mod bd')) (length t).
Proof.
  exists [97; 98]%Z. eexists. split; [vm_compute; reflexivity|].
  split; [reflexivity|]. split; [reflexivity|].
  intros (_ & _ & H & _). vm_compute in H. discriminate.
Qed.
Print Assumptions C03_deletion_refuted.

(** Appending (begin = len(text)), which [replace] accepts, loses the
    "one entry per character" part. *)
Theorem C03_append_refuted :
  exists (t : text) (bd' : builder),
    replace (builder_init t) 2 3 [99]%Z = Ok bd' /\
    b_mod bd' = t ++ [99]%Z /\ length (b_m2o bd') = length (b_mod bd').
Proof. exists [97; 98]%Z. eexists. split; [vm_compute; reflexivity|]. split; reflexivity. Qed.
Print Assumptions C03_append_refuted.

(** What a deletion does achieve: right text, right number of entries, still
    non-decreasing and starting at 0; and if something follows the deleted part
    ([end < len]), the end of the original stays reachable. *)
Theorem C03_deletion_partial (t : text) (bd : builder) (begin end_ : Z) :
  edited t bd -> (0 <= begin < end_)%Z -> (end_ < Z.of_nat (length (b_mod bd)))%Z ->
  exists bd', replace bd begin end_ [] = Ok bd' /\
    b_mod bd' = firstn (Z.to_nat begin) (b_mod bd) ++ skipn (Z.to_nat end_) (b_mod bd) /\
    position_map (b_m2o bd') (length (b_mod bd')) (length t).
Proof.
  intros He Hbe Hel.
  destruct (edited_wf _ _ He) as (Ho & Hl & H0 & Hn & Hmono).
  set (b := Z.to_nat begin). set (e := Z.to_nat end_). set (m := b_m2o bd) in *.
  set (n := length (b_mod bd)) in *.
  assert (Hb : b < e) by lia. assert (Hen : e < n) by lia.
  destruct (nth_error m b) as [mb|] eqn:Emb; [|apply nth_error_None in Emb; lia].
  destruct (nth_error m e) as [me|] eqn:Eme; [|apply nth_error_None in Eme; lia].
  assert (Hfb : length (firstn b m) = b) by (rewrite firstn_length; lia).
  assert (E : replace bd begin end_ [] = Ok {| b_orig := b_orig bd;
     b_mod := firstn b (b_mod bd) ++ skipn e (b_mod bd);
     b_m2o := firstn b m ++ mb :: skipn (S e) m |}).
  { unfold replace. fold b. fold m. fold n.
    destruct (Z.ltb_spec begin 0); [lia|].
    destruct (Z.ltb_spec (Z.of_nat n) begin); [lia|].
    destruct (Z.ltb_spec end_ begin); [lia|].
    destruct (Z.eqb_spec begin end_); [lia|].
    destruct (Z.ltb_spec (Z.of_nat n) end_); [lia|]. fold e.
    unfold get. rewrite Emb, Eme. cbn [bind length].
    destruct (Nat.ltb_spec 0 (e - b)); [|lia]. rewrite Nat.add_0_r.
    rewrite (skipn_cons_nth _ _ _ Eme).
    rewrite <- Hfb at 2. rewrite set_nth_app. reflexivity. }
  exists {| b_orig := b_orig bd;
     b_mod := firstn b (b_mod bd) ++ skipn e (b_mod bd);
     b_m2o := firstn b m ++ mb :: skipn (S e) m |}.
  cbn [b_mod b_m2o]. split; [exact E|]. split; [reflexivity|].
  replace (length (firstn b (b_mod bd) ++ skipn e (b_mod bd))) with (b + (n - e)) by
    (rewrite app_length, firstn_length, skipn_length; fold n; lia).
  (* the new map is the old one with [b+1 .. e] dropped *)
  assert (Hpm : position_map (firstn b m ++ mb :: repeat 0 0 ++ skipn (S e) m) (b + 1 + (n - S e)) (length t)).
  { apply (position_map_replace m n (length t) b (S e) 0 mb
      (match nth_error m (S e) with Some x => x | None => 0 end)); auto; try lia.
    - repeat split; auto.
    - destruct (nth_error m (S e)) eqn:E2; auto. apply nth_error_None in E2. lia. }
  simpl in Hpm. replace (b + 1 + (n - S e)) with (b + (n - e)) in Hpm by lia. exact Hpm.
Qed.
Print Assumptions C03_deletion_partial.

Example C03_nonvacuous :
  replace (builder_init [97; 98; 99; 100]%Z) 1 2 []
  = Ok {| b_orig := [97; 98; 99; 100]%Z; b_mod := [97; 99; 100]%Z; b_m2o := [0; 1; 3; 4] |}.
Proof. vm_compute. reflexivity. Qed.

(** ** C04 *)
Theorem C04_original_index (category : Z -> list cat) (t : text) (bd : builder) :
  (forall c, category c <> []) -> edited t bd -> scalar_text (b_mod bd) ->
  exists it, build category bd = Ok it /\
    encode (b_mod bd) = Ok (it_bytes it) /\ it_orig it = t /\
    (forall p, p <= length (it_bytes it) -> exists o, get_original_index it p = Ok o) /\
    get_original_index it 0 = Ok 0 /\
    get_original_index it (length (it_bytes it)) = Ok (length t) /\
    (forall p q x y, p <= q -> get_original_index it p = Ok x -> get_original_index it q = Ok y -> x <= y) /\
    (forall p q k, in_char (b_mod bd) p k -> in_char (b_mod bd) q k ->
       get_original_index it p = get_original_index it q) /\
    (forall p k, in_char (b_mod bd) p k -> get_offset_text_length it p = Ok k) /\
    get_offset_text_length it (length (it_bytes it)) = Ok (length (b_mod bd)).
Proof.
  intros Hcat He Hs.
  destruct (edited_wf _ _ He) as (Ho & Hpm).
  destruct (build_spec category t bd (conj Ho Hpm) Hs (fun c _ => Hcat c)) as (it & Eb & B).
  destruct Hpm as (Hl & H0 & Hn & Hmono).
  exists it. split; [exact Eb|]. split; [exact (bt_enc B)|]. split; [exact (bt_orig B)|].
  assert (Hoff : forall p k, char_pos (t := b_mod bd) (it := it) p k ->
            get_original_index it p = get (b_m2o bd) k).
  { intros p k Hp. unfold get_original_index, get. now rewrite (off_char_pos B p k Hp). }
  assert (Hk : forall p k, char_pos (t := b_mod bd) (it := it) p k -> k <= length (b_mod bd)).
  { intros p k [H|[_ H]]; [destruct H; lia|lia]. }
  split.
  { intros p Hp. destruct (char_pos_exists B p Hp) as (k & Hpk).
    rewrite (Hoff p k Hpk). apply get_lt. apply Hk in Hpk. lia. }
  split.
  { destruct (char_pos_exists B 0 ltac:(lia)) as (k & Hpk).
    rewrite (Hoff 0 k Hpk). unfold get.
    assert (k = 0).
    { destruct Hpk as [(A1 & A2 & A3)|[A1 A2]].
      - pose proof (char_start_0 (b_mod bd)). destruct k; auto.
        pose proof (char_start_lt (b_mod bd) 0 (S k) ltac:(lia) ltac:(lia)). lia.
      - pose proof (len_bytes B). destruct (Nat.eq_dec (length (b_mod bd)) 0) as [E|E]; [lia|].
        pose proof (char_start_lt (b_mod bd) 0 (length (b_mod bd)) ltac:(lia) ltac:(lia)). lia. }
    subst k. now rewrite H0. }
  split.
  { rewrite (Hoff _ (length (b_mod bd))); [|now right]. unfold get. now rewrite Hn. }
  split.
  { intros p q x y Hpq Hx Hy.
    assert (Hq : q < length (it_offsets it)) by (eapply get_ok_lt; exact Hy).
    rewrite (bt_off_len B) in Hq.
    destruct (char_pos_exists B p ltac:(lia)) as (k & Hpk).
    destruct (char_pos_exists B q ltac:(lia)) as (j & Hqj).
    rewrite (Hoff _ _ Hpk) in Hx. rewrite (Hoff _ _ Hqj) in Hy.
    apply get_ok in Hx, Hy. eapply Hmono; [|exact Hx|exact Hy].
    exact (char_pos_mono B p q k j Hpq Hpk Hqj). }
  split.
  { intros p q k Hp Hq. rewrite (Hoff p k), (Hoff q k); auto; now left. }
  split.
  { intros p k Hp. unfold get_offset_text_length, get. now rewrite (bt_bi B p k Hp). }
  { unfold get_offset_text_length, get. now rewrite (bt_bi_end B). }
Qed.
Print Assumptions C04_original_index.

(** ** C05 *)
Theorem C05_substring (category : Z -> list cat) (t : text) (bd : builder) :
  (forall c, category c <> []) -> edited t bd -> scalar_text (b_mod bd) ->
  exists it, build category bd = Ok it /\
    (forall i j, i <= j <= length (b_mod bd) ->
       let b := char_start (b_mod bd) i in let e := char_start (b_mod bd) j in
       exists s, get_substring it (Z.of_nat b) (Z.of_nat e) = Ok s /\
         encode s = Ok (slice (it_bytes it) b e) /\ s = slice (b_mod bd) i j) /\
    (forall b e : Z, (b < 0 \/ Z.of_nat (length (it_bytes it)) < e \/ e < b)%Z ->
       get_substring it b e = Err EIndex).
Proof.
  intros Hcat He Hs.
  destruct (build_spec category t bd (edited_wf _ _ He) Hs (fun c _ => Hcat c)) as (it & Eb & B).
  exists it. split; [exact Eb|]. split.
  - intros i j Hij. cbn zeta. eexists. split; [apply (substring_spec B); lia|].
    split; [|reflexivity]. apply (slice_encode B); lia.
  - intros b e H. unfold get_substring.
    destruct (Z.ltb_spec b 0); [reflexivity|].
    destruct (Z.ltb_spec (Z.of_nat (length (it_bytes it))) e); [reflexivity|].
    destruct (Z.ltb_spec e b); [reflexivity|lia].
Qed.
Print Assumptions C05_substring.

(** ** C06 *)
Theorem C06_byte_length (c : Z) :
  is_scalar c = true -> encode [c] = Ok (encode_cp c) /\ utf8_byte_length c = length (encode_cp c).
Proof.
  intros H. split; [|exact (utf8_byte_length_spec c H)].
  simpl. rewrite H. simpl. now rewrite app_nil_r.
Qed.
Print Assumptions C06_byte_length.

Theorem C06_utf8_decodable (t : text) :
  (scalar_text t -> exists b, encode t = Ok b /\ decode b = Ok t /\
     length b = list_sum (map utf8_byte_length t)) /\
  (forall t' b, encode t = Ok b -> encode t' = Ok b -> t = t').
Proof.
  split.
  - intros H. destruct (encode_total t H) as (b & E). exists b.
    split; [auto|]. split; [now apply decode_encode|]. symmetry. now apply sum_lengths.
  - intros t' b. apply encode_inj.
Qed.
Print Assumptions C06_utf8_decodable.

(** ** C07 *)
Theorem C07_runs (category : Z -> list cat) (t : text) (bd : builder) :
  (forall c, category c <> []) -> edited t bd -> scalar_text (b_mod bd) ->
  let T := b_mod bd in let cats := map category T in
  exists it, build category bd = Ok it /\
    forall p k, in_char T p k ->
      exists s e n, run_start cats s /\ is_run cats s e /\ s <= k < e /\
        get_cont_length it p = Ok n /\ 0 < n /\ p + n = char_start T e /\
        exists c, shared cats k e c.
Proof.
  intros Hcat He Hs T cats.
  destruct (build_spec category t bd (edited_wf _ _ He) Hs (fun c _ => Hcat c)) as (it & Eb & B).
  exists it. split; [exact Eb|]. intros p k Hp.
  destruct (cont_length B p k Hp) as (s & e & A1 & A2 & A3 & A4 & A5).
  exists s, e, (char_start T e - p).
  split; [exact A1|]. split; [exact A2|]. split; [exact A3|]. split; [exact A4|].
  fold T in A5. split; [lia|]. split; [lia|].
  destruct A2 as (_ & (c & Hc) & _). exists c. intros j Hj. apply Hc. lia.
Qed.
Print Assumptions C07_runs.

(** ** C08 *)
(** Soundness for every span; completeness for every span that lies in the run
    of its first character - in particular whenever the first character starts a
    run, or the span is a single character. *)
Theorem C08_common_categories_partial (category : Z -> list cat) (t : text) (bd : builder) :
  (forall c, category c <> []) -> edited t bd -> scalar_text (b_mod bd) ->
  let T := b_mod bd in let cats := map category T in
  exists it, build category bd = Ok it /\
    forall i j, i < j <= length T ->
      exists cs, get_cats_range it (char_start T i) (char_start T j) = Ok cs /\
        (forall c, In c cs -> shared cats i j c) /\
        (run_start cats i \/ j = S i -> forall c, shared cats i j c -> In c cs).
Proof.
  intros Hcat He Hs T cats.
  destruct (build_spec category t bd (edited_wf _ _ He) Hs (fun c _ => Hcat c)) as (it & Eb & B).
  exists it. split; [exact Eb|]. intros i j Hij.
  destruct (cont_length B (char_start T i) i) as (s & e & A1 & A2 & A3 & A4 & A5).
  { apply in_char_start. fold T. lia. }
  destruct (cats_range_spec B i j s e) as (cs & E & Hin & Hout); auto; try (fold T; lia).
  exists cs. split; [exact E|]. split.
  - intros c Hc. destruct (le_lt_dec j e); [apply Hin; auto|]. rewrite Hout in Hc by auto. destruct Hc.
  - intros Hrs c Hc. apply Hin; auto.
    destruct Hrs as [Hrs| ->]; [|lia].
    destruct (le_lt_dec j e) as [|Hlt]; auto. exfalso.
    assert (Hsi : i = s) by (eapply run_start_in_run; eauto). subst i.
    destruct A2 as (R & _ & [M|M]).
    + assert (length cats = length T) by apply map_length. fold T cats in M. lia.
    + apply (M c). intros q Hq. apply Hc. lia.
Qed.
Print Assumptions C08_common_categories_partial.

(** A category table for the examples: 'a' ALPHA, 'b' ALPHA and SYMBOL,
    'c' SYMBOL, everything else KANJI. *)
Definition abc_category (c : Z) : list cat :=
  (if c =? 97 then [ALPHA] else if c =? 98 then [ALPHA; SYMBOL]
   else if c =? 99 then [SYMBOL] else [KANJI])%Z.

(** For the text "abc" the last two characters share SYMBOL but
    get_char_category_types(1, 3) is empty. *)
Theorem C08_completeness_refuted :
  exists (it : input_text) (c : cat),
    build abc_category (builder_init [97; 98; 99]%Z) = Ok it /\
    shared (map abc_category [97; 98; 99]%Z) 1 3 c /\
    get_cats_range it 1 3 = Ok [].
Proof.
  eexists. exists SYMBOL. split; [vm_compute; reflexivity|]. split; [|reflexivity].
  intros j Hj. assert (j = 1 \/ j = 2) as [-> | ->] by lia; eexists; (split; [reflexivity|]); vm_compute; auto.
Qed.
Print Assumptions C08_completeness_refuted.

Example C07_C08_nonvacuous :
  exists it, build abc_category (builder_init [97; 98; 0x6F22; 99]%Z) = Ok it /\
    it_conts it = [2; 1; 3; 2; 1; 1] /\ get_cats_range it 0 2 = Ok [ALPHA] /\
    it_bow it = [true; false; true; true].
Proof. eexists. split; [vm_compute; reflexivity|]. repeat split. Qed.

(** ** C09 *)
Theorem C09_code_points (category : Z -> list cat) (t : text) (bd : builder) :
  (forall c, category c <> []) -> edited t bd -> scalar_text (b_mod bd) ->
  let T := b_mod bd in
  exists it, build category bd = Ok it /\
    (forall i n, i < length T ->
       get_code_points_offset_length it (char_start T i) n
       = Ok (char_start T (min (i + n) (length T)) - char_start T i)) /\
    (forall i j, i <= length T -> j <= length T ->
       code_point_count it (char_start T i) (char_start T j) = Ok (Z.of_nat j - Z.of_nat i)%Z).
Proof.
  intros Hcat He Hs T.
  destruct (build_spec category t bd (edited_wf _ _ He) Hs (fun c _ => Hcat c)) as (it & Eb & B).
  exists it. split; [exact Eb|]. split.
  - intros i n Hi. pose proof (in_char_start T i Hi) as Hin. destruct n.
    + rewrite (code_points_offset_zero B _ _ Hin). f_equal.
      replace (min (i + 0) (length T)) with i by lia. lia.
    + apply (code_points_offset_spec B _ _ _ Hin). lia.
  - intros i j Hi Hj.
    assert (G : forall k, k <= length T -> char_pos (t := T) (it := it) (char_start T k) k).
    { intros k Hk. destruct (Nat.eq_dec k (length T)) as [->|].
      - right. split; [exact (len_bytes B)|reflexivity].
      - left. apply in_char_start. lia. }
    apply (code_point_count_spec B); apply G; auto.
Qed.
Print Assumptions C09_code_points.

(** ** C10 *)
(** [word_start category T p]: byte [p] is the first byte of a character of [T] at which
    char.def allows a word to begin: the first character, or one that is not
    ALPHA/GREEK/CYRILLIC, or one that shares no category with its predecessor. *)
Definition word_start (category : Z -> list cat) (T : text) (p : nat) : Prop :=
  exists k c, nth_error T k = Some c /\ p = char_start T k /\
    (k = 0 \/
     ~ (In ALPHA (category c) \/ In GREEK (category c) \/ In CYRILLIC (category c)) \/
     exists d, nth_error T (k - 1) = Some d /\ forall x, In x (category c) -> ~ In x (category d)).

Lemma bow_at_word_start category T k c :
  nth_error T k = Some c ->
  (bow_at (map category T) k <-> word_start category T (char_start T k)).
Proof.
  intros Hc. assert (Hk : k < length T) by (apply nth_error_Some; congruence).
  split.
  - intros H. exists k, c. split; [auto|]. split; [auto|].
    destruct k as [|j]; [auto|]. right. cbn [bow_at] in H.
    destruct (nth_error T j) as [d|] eqn:Ed; [|apply nth_error_None in Ed; lia].
    specialize (H (category c) (category d) (map_nth_error category _ _ Hc) (map_nth_error category _ _ Ed)).
    destruct (cat_mem ALPHA (category c) || cat_mem GREEK (category c) || cat_mem CYRILLIC (category c)) eqn:E.
    + right. exists d. split; [simpl; rewrite Nat.sub_0_r; auto|]. apply H.
      rewrite !orb_true_iff, !cat_mem_In in E. tauto.
    + left. intros A. assert (E' : cat_mem ALPHA (category c) || cat_mem GREEK (category c) || cat_mem CYRILLIC (category c) = true).
      { rewrite !orb_true_iff, !cat_mem_In. tauto. }
      congruence.
  - intros (k' & c' & Hc' & Hp & H).
    assert (k' < length T) by (apply nth_error_Some; congruence).
    assert (k = k') by (eapply char_start_inj; [| |exact Hp]; lia). subst k'.
    assert (c' = c) by congruence. subst c'.
    destruct k as [|j]; [exact I|]. cbn [bow_at].
    intros cc pp Ecc Epp Ha x Hx Hx'.
    assert (Hcc : cc = category c) by (rewrite (map_nth_error category _ _ Hc) in Ecc; congruence).
    destruct (nth_error T j) as [d|] eqn:Ed; [|apply nth_error_None in Ed; lia].
    assert (Hpp : pp = category d) by (rewrite (map_nth_error category _ _ Ed) in Epp; congruence).
    subst cc pp.
    destruct H as [H|[H|(d' & Hd' & H)]]; [lia|tauto|].
    simpl in Hd'. rewrite Nat.sub_0_r, Ed in Hd'. injection Hd' as <-. eapply H; eauto.
Qed.

Theorem C10_word_candidates (category : Z -> list cat) (t : text) (bd : builder) :
  (forall c, category c <> []) -> edited t bd -> scalar_text (b_mod bd) ->
  let T := b_mod bd in
  exists it, build category bd = Ok it /\
    let len := length (it_bytes it) in
    (forall p, p < len -> exists b, can_bow it p = Ok b /\ (b = true <-> word_start category T p)) /\
    (0 < len -> can_bow it 0 = Ok true) /\
    (forall p, p < len -> exists n, get_word_candidate_length it p = Ok n /\ 0 < n /\
       p + n <= len /\ (p + n = len \/ word_start category T (p + n)) /\
       (forall r, p < r < p + n -> ~ word_start category T r)).
Proof.
  intros Hcat He Hs T.
  destruct (build_spec category t bd (edited_wf _ _ He) Hs (fun c _ => Hcat c)) as (it & Eb & B).
  exists it. split; [exact Eb|]. cbn zeta.
  assert (G : forall p, p < length (it_bytes it) ->
      exists b, can_bow it p = Ok b /\ (b = true <-> word_start category T p)).
  { intros p Hp. destruct (in_char_exists T _ p (bt_enc B) Hp) as (k & Hk).
    destruct (can_bow_spec B p k Hk) as (b & E & Hb). exists b. split; [exact E|].
    rewrite Hb. destruct (nth_error T k) as [c|] eqn:Ec.
    2:{ apply nth_error_None in Ec. destruct Hk. lia. }
    change (b_mod bd) with T. rewrite (bow_at_word_start category T k c Ec). split.
    - intros (-> & H). exact H.
    - intros H. pose proof H as (k' & c' & Hk' & Hp' & _).
      assert (k' < length T) by (apply nth_error_Some; congruence).
      assert (k' = k) by (eapply in_char_unique; [|exact Hk]; rewrite Hp'; apply in_char_start; auto).
      subst k'. rewrite <- Hp'. auto. }
  split; [exact G|]. split.
  - intros Hl. destruct (G 0 Hl) as (b & E & Hb). rewrite E. f_equal. apply Hb.
    destruct (in_char_exists T _ 0 (bt_enc B) Hl) as (k & Hk).
    assert (k = 0).
    { destruct Hk as (H1 & H2 & H3). destruct k; auto.
      pose proof (char_start_lt T 0 (S k) ltac:(lia) ltac:(lia)). rewrite char_start_0 in H. lia. }
    subst k. destruct Hk as (Hk & _).
    destruct (nth_error T 0) as [c|] eqn:Ec; [|apply nth_error_None in Ec; lia].
    exists 0, c. rewrite char_start_0. auto.
  - intros p Hp. destruct (word_candidate_spec B p Hp) as (n & En & (H1 & H2) & H3 & H4).
    exists n. repeat split; auto; try lia.
    + destruct H3 as [H3|H3]; auto. right.
      assert (Hlt : p + n < length (it_bytes it)).
      { unfold can_bow in H3. apply bind_ok in H3 as (x & Hx & _). now apply get_ok_lt in Hx. }
      destruct (G _ Hlt) as (b & E & Hb). rewrite E in H3. injection H3 as ->. now apply Hb.
    + intros r Hr Hw. destruct (G r ltac:(lia)) as (b & E & Hb).
      rewrite (H4 r Hr) in E. injection E as <-. apply Hb in Hw. discriminate.
Qed.
Print Assumptions C10_word_candidates.

(** The hypotheses of C04-C10 on a text with 1, 2, 3 and 4 byte characters after
    a rewriting, and what the accessors answer. *)
Example C04_C10_nonvacuous :
  exists bd it,
    edited [97; 0x3B1; 0x6F22; 0x20BB7]%Z bd /\
    build abc_category bd = Ok it /\
    it_bytes it = [97; 98; 0xE6; 0xBC; 0xA2; 0xF0; 0xA0; 0xAE; 0xB7]%Z /\
    it_offsets it = [0; 1; 2; 2; 2; 3; 3; 3; 3; 4] /\
    get_substring it 1 5 = Ok [98; 0x6F22]%Z /\
    get_code_points_offset_length it 1 2 = Ok 4 /\
    get_word_candidate_length it 0 = Ok 2 /\
    can_bow it 1 = Ok false /\ can_bow it 2 = Ok true /\ can_bow it 3 = Ok false.
Proof.
  eexists. eexists. split.
  { eapply ed_replace with (begin := 1%Z) (end_ := 2%Z) (s := [98]%Z).
    - apply ed_fresh.
    - simpl; lia.
    - discriminate.
    - vm_compute; reflexivity. }
  split; [vm_compute; reflexivity|]. repeat split.
Qed.
