(** The grammar section of a built dictionary: part-of-speech table and connection matrix. *)
From Coq Require Import List ZArith Lia Bool Arith.
From Verif Require Import Base Utf8 M_Builder M_Lattice M_Bytes P_Bytes M_DicReader M_DicBuilder P_DicFormat P_DicWrite P_DicOpen.
Import ListNotations.
Open Scope Z_scope.

(** ** Joining and splitting *)
Lemma split_on_nonempty sep t : split_on sep t <> [].
Proof. destruct t; cbn [split_on]; [discriminate|]. destruct (z =? sep); [discriminate|]. destruct (split_on sep t); discriminate. Qed.

Lemma split_on_plain sep t : ~ In sep t -> split_on sep t = [t].
Proof.
  induction t as [|c t IH]; intros N; [reflexivity|]. cbn [split_on].
  destruct (c =? sep) eqn:E; Zbool; [subst; exfalso; apply N; now left|].
  rewrite IH; [reflexivity|]. intros X. apply N. now right.
Qed.

Lemma split_on_app sep w t : ~ In sep w -> split_on sep (w ++ sep :: t) = w :: split_on sep t.
Proof.
  induction w as [|c w IH]; intros N; cbn [app split_on]; [now rewrite Z.eqb_refl|].
  destruct (c =? sep) eqn:E; Zbool; [subst; exfalso; apply N; now left|].
  rewrite IH; [reflexivity|]. intros X. apply N. now right.
Qed.

Lemma split_join sep l : l <> [] -> Forall (fun w => ~ In sep w) l -> split_on sep (join_with sep l) = l.
Proof.
  induction l as [|w l IH]; intros N F; [congruence|]. inversion F; subst.
  destruct l as [|v l]; [now apply split_on_plain|].
  change (join_with sep (w :: v :: l)) with (w ++ sep :: join_with sep (v :: l)).
  rewrite split_on_app by auto. f_equal. apply IH; [discriminate|auto].
Qed.

Lemma join_split sep t : join_with sep (split_on sep t) = t.
Proof.
  induction t as [|c t IH]; [reflexivity|]. cbn [split_on]. pose proof (split_on_nonempty sep t) as N.
  destruct (c =? sep) eqn:E; Zbool.
  - subst. destruct (split_on sep t) as [|w ws]; [congruence|]. cbn [join_with app] in *. now rewrite IH.
  - destruct (split_on sep t) as [|w ws]; [congruence|]. destruct ws; cbn [join_with app] in *; now rewrite IH.
Qed.

(** ** The part-of-speech table *)
Lemma reads_times {A B} (f : A -> res bytes) (c : prog B) (g : A -> B) l : 
  (forall x b, In x l -> f x = Ok b -> reads c b (g x)) ->
  forall b, put_all f l = Ok b -> reads (ptimes (length l) c) b (map g l).
Proof.
  induction l as [|x l IH]; intros Hf b H; cbn [put_all ptimes length map] in *.
  - inversion H. apply reads_ret.
  - apply bind_ok in H as (a & Ha & H). apply bind_ok in H as (r & Hr & [= <-]).
    eapply reads_bind; [apply (Hf x); [now left|exact Ha]|].
    eapply reads_then; [apply IH; [|exact Hr]; intros y b Hy; apply Hf; now right|]. apply reads_ret.
Qed.

(** A component that the reader can read *)
Definition readable_component (t : text) : Prop :=
  (length (units t) <= 127)%nat /\ hd 0 t <> 0xFEFF /\ hd 0 t <> 0xFFFE.
Definition readable_pos (s : text) : Prop :=
  length (split_on comma s) = POS_DEPTH /\ Forall readable_component (split_on comma s).

Lemma convert_postable_reads table b : convert_postable table = Ok b -> Forall readable_pos table ->
  exists b1 b2, b = b1 ++ b2 /\ put_short (Z.of_nat (length table)) = Ok b1 /\
    reads (ptimes (length table) (ptimes POS_DEPTH get_string)) b2 (map (split_on comma) table).
Proof.
  unfold convert_postable. intros H F. apply bind_ok in H as (b1 & H1 & H). apply bind_ok in H as (b2 & H2 & [= <-]).
  exists b1, b2. split; auto. split; auto. eapply reads_times; [|exact H2].
  intros s b Hs Hb. rewrite Forall_forall in F. destruct (F _ Hs) as (L & C). rewrite <- L.
  replace (split_on comma s) with (map (fun x : text => x) (split_on comma s)) at 2 by apply map_id.
  eapply reads_times; [|exact Hb]. intros t u Ht Hu. rewrite Forall_forall in C. destruct (C _ Ht) as (A1 & A2 & A3).
  now apply put_string_pos.
Qed.

(** ** The matrix as cells *)
Definition enc (cells : list Z) : bytes := concat (map (le 2) cells).
Definition upd (i : nat) (c : Z) (cells : list Z) : list Z :=
  firstn i cells ++ repeat 0 (i - length cells) ++ c :: skipn (S i) cells.

Lemma enc_length cells : length (enc cells) = (2 * length cells)%nat.
Proof. apply concat_le2_length. Qed.
Lemma enc_app a b : enc (a ++ b) = enc a ++ enc b.
Proof. unfold enc. now rewrite map_app, concat_app. Qed.
Lemma enc_zeros n : enc (repeat 0 n) = repeat 0 (2 * n).
Proof.
  induction n; [reflexivity|]. replace (2 * S n)%nat with (S (S (2 * n))) by lia.
  cbn [repeat]. unfold enc in *. cbn [map concat]. rewrite IHn. reflexivity.
Qed.
Lemma enc_firstn n cells : firstn (2 * n) (enc cells) = enc (firstn n cells).
Proof.
  revert cells. induction n; intros [|c cells]; try reflexivity.
  replace (2 * S n)%nat with (S (S (2 * n))) by lia. unfold enc in *. cbn [map concat le app firstn]. now rewrite IHn.
Qed.
Lemma enc_skipn n cells : skipn (2 * n) (enc cells) = enc (skipn n cells).
Proof.
  revert cells. induction n; intros [|c cells]; try reflexivity.
  replace (2 * S n)%nat with (S (S (2 * n))) by lia. unfold enc in *. cbn [map concat le app skipn]. now rewrite IHn.
Qed.

Lemma write_cell cells i c b : put_short c = Ok b -> f_data (f_write (File (enc cells) (2 * i)) b) = enc (upd i c cells).
Proof.
  intros H. assert (E : b = le 2 c) by (apply to_bytes_signed in H as (-> & _); [reflexivity|lia]).
  rewrite E. change (le 2 c) with [c mod 256; (c / 256) mod 256].
  unfold f_write. cbn [f_pos f_data length]. rewrite enc_firstn, enc_length.
  replace (2 * i - 2 * length cells)%nat with (2 * (i - length cells))%nat by lia. rewrite <- enc_zeros.
  replace (2 * i + 2)%nat with (2 * S i)%nat by lia. rewrite enc_skipn. unfold upd. rewrite !enc_app. reflexivity.
Qed.

Lemma upd_length i c cells : length (upd i c cells) = Nat.max (length cells) (S i).
Proof. unfold upd. rewrite !app_length, repeat_length. cbn [length]. rewrite firstn_length, skipn_length. lia. Qed.

Lemma upd_nth i c cells j : nth j (upd i c cells) 0 = if (j =? i)%nat then c else nth j cells 0.
Proof.
  unfold upd. destruct (Nat.eqb_spec j i) as [->|N].
  - rewrite app_assoc, app_nth2; rewrite app_length, repeat_length, firstn_length; [|lia].
    replace (i - _)%nat with O by lia. reflexivity.
  - destruct (Nat.lt_ge_cases j i) as [L|L].
    + destruct (Nat.lt_ge_cases j (length cells)) as [C|C].
      * rewrite app_nth1 by (rewrite firstn_length; lia).
        rewrite <- (firstn_skipn i cells) at 2. rewrite app_nth1; auto. rewrite firstn_length. lia.
      * rewrite (nth_overflow cells) by lia. rewrite app_nth2 by (rewrite firstn_length; lia).
        rewrite app_nth1 by (rewrite repeat_length, firstn_length; lia). apply nth_repeat.
    + rewrite app_assoc, app_nth2; rewrite app_length, repeat_length, firstn_length; [|lia].
      destruct (j - _)%nat as [|m] eqn:E; [lia|]. cbn [nth].
      destruct (Nat.lt_ge_cases j (length cells)) as [C|C].
      * rewrite <- (firstn_skipn (S i) cells) at 2. rewrite app_nth2 by (rewrite firstn_length; lia).
        f_equal. rewrite firstn_length. lia.
      * rewrite !nth_overflow; auto. rewrite skipn_length. lia.
Qed.

Definition short_range (c : Z) : Prop := -32768 <= c < 32768.

Lemma shorts_enc cells : Forall short_range cells -> shorts (enc cells) = Ok cells.
Proof.
  induction 1 as [|c l R F IH]; [reflexivity|].
  change (enc (c :: l)) with (le 2 c ++ enc l). rewrite shorts_app by apply le_length. rewrite IH. cbn [bind].
  destruct (put_short_total c R) as [b Hb]. pose proof (put_short_ok _ _ Hb) as (_ & U & _).
  apply to_bytes_signed in Hb as (-> & _); [|lia]. now rewrite U.
Qed.

Lemma Forall_take_drop {A} (P : A -> Prop) n l : Forall P l -> Forall P (firstn n l) /\ Forall P (skipn n l).
Proof. intros F. rewrite <- (firstn_skipn n l) in F. now apply Forall_app in F. Qed.

Lemma upd_range i c cells : short_range c -> Forall short_range cells -> Forall short_range (upd i c cells).
Proof.
  intros R F. unfold upd. apply Forall_app. split; [now apply Forall_take_drop|]. apply Forall_app. split.
  - apply Forall_forall. intros x Hx. apply repeat_spec in Hx. subst. unfold short_range. lia.
  - constructor; auto. now apply Forall_take_drop.
Qed.

(** The lines of a matrix file with sizes [n] and [m]: pairs of ids in range *)
Definition cell_line (n m : Z) (cols : list Z) : Prop :=
  exists l r c, cols = [l; r; c] /\ 0 <= l < n /\ 0 <= r < m.

(** [c] is the last cost that the lines give for the pair *)
Definition given (lines : list (list Z)) (l r c : Z) : Prop :=
  exists pre post, lines = pre ++ [l; r; c] :: post /\ forall c', ~ In [l; r; c'] post.
Definition not_given (lines : list (list Z)) (l r : Z) : Prop := forall c, ~ In [l; r; c] lines.

Lemma foldM_snoc {A B} (f : A -> B -> res A) a l x : foldM f a (l ++ [x]) = (b <- foldM f a l ;; f b x).
Proof.
  revert a. induction l as [|y l IH]; intros a; cbn [app foldM bind].
  - destruct (f a x); reflexivity.
  - destruct (f a y); cbn [bind]; auto.
Qed.

(** Different pairs have different cells. *)
Lemma cell_inj n l r l' r' : 0 <= l < n -> 0 <= l' < n -> l + n * r = l' + n * r' -> l = l' /\ r = r'.
Proof.
  intros H H' E. assert (r = r') as ->.
  { assert (X : r = (l + n * r) / n) by (rewrite Z.mul_comm, Z.div_add by lia; rewrite Z.div_small by lia; lia).
    assert (Y : r' = (l' + n * r') / n) by (rewrite Z.mul_comm, Z.div_add by lia; rewrite Z.div_small by lia; lia).
    congruence. }
  lia.
Qed.

Lemma given_snoc lines l r c l' r' c' : given (lines ++ [[l'; r'; c']]) l r c ->
  (l = l' /\ r = r' /\ c = c') \/ ((l, r) <> (l', r') /\ given lines l r c).
Proof.
  intros (pre & post & E & N).
  destruct (exists_last (l := [l; r; c] :: post) ltac:(discriminate)) as (q & x & Eq).
  rewrite Eq, app_assoc in E. apply app_inj_tail in E as [E1 E2]. subst x.
  destruct q as [|y q].
  - cbn [app] in Eq. inversion Eq; subst. auto.
  - cbn [app] in Eq. inversion Eq; subst y post. right. split.
    + intros [= -> ->]. apply (N c'). apply in_or_app. right. now left.
    + exists pre, q. split; auto. intros c'' X. apply (N c''). apply in_or_app. now left.
Qed.

Lemma matrix_cells n m lines : forall f,
  foldM (matrix_line n) (File [] 0) lines = Ok f -> Forall (cell_line n m) lines ->
  exists cells, f = File (enc cells) 0 /\ Forall short_range cells /\ Z.of_nat (length cells) <= Z.max 0 (n * m) /\
    (forall l r c, In [l; r; c] lines -> l + n * r < Z.of_nat (length cells)) /\
    (forall l r, 0 <= l < n -> 0 <= r < m ->
       (forall c, given lines l r c -> nth (Z.to_nat (l + n * r)) cells 0 = c) /\
       (not_given lines l r -> nth (Z.to_nat (l + n * r)) cells 0 = 0)).
Proof.
  induction lines as [|x lines IH] using rev_ind; intros f H F.
  - cbn [foldM] in H. inversion H; subst. exists []. split; [reflexivity|]. split; [constructor|]. cbn [length].
    split; [lia|]. split; [intros l r c []|]. intros l r _ _. split.
    + intros c ([|? ?] & post & E & _); discriminate.
    + intros _. now destruct (Z.to_nat _).
  - rewrite foldM_snoc in H. apply bind_ok in H as (f0 & H0 & H). apply Forall_app in F as [F Fx].
    inversion Fx as [|? ? (l0 & r0 & c0 & -> & Hl0 & Hr0) _]; subst.
    destruct (IH _ H0 F) as (cells & -> & R & L & S & G). cbn [matrix_line f_pos] in H.
    assert (P : 0 <= l0 + n * r0 < n * m) by nia.
    replace (2 * (l0 + n * r0) <? 0) with false in H by (symmetry; apply Z.ltb_ge; lia).
    apply bind_ok in H as (b & Hb & H).
    match type of H with Ok ?x = Ok _ => assert (Ef : f = x) by congruence end. clear H. subst f.
    exists (upd (Z.to_nat (l0 + n * r0)) c0 cells).
    assert (Rc : short_range c0) by (apply put_short_ok in Hb as (_ & _ & Hr); exact Hr).
    split.
    { assert (E2 : Z.to_nat (2 * (l0 + n * r0)) = (2 * Z.to_nat (l0 + n * r0))%nat) by lia.
      change (f_seek (File (enc cells) 0) ?x) with (File (enc cells) x). rewrite E2.
      unfold f_seek at 1. now rewrite (write_cell _ _ _ _ Hb). }
    split; [now apply upd_range|]. split; [rewrite upd_length; lia|]. split.
    { intros l r c Hin. rewrite upd_length. apply in_app_or in Hin as [Hin|[[= <- <- <-]|[]]]; [apply S in Hin|]; lia. }
    intros l r Hl Hr. rewrite upd_nth. destruct (G l r Hl Hr) as [G1 G2].
    destruct (Nat.eqb_spec (Z.to_nat (l + n * r)) (Z.to_nat (l0 + n * r0))) as [E|E].
    + assert (X : l = l0 /\ r = r0) by (apply (cell_inj n); [auto|auto|nia]). destruct X as [-> ->]. split.
      * intros c Hc. apply given_snoc in Hc as [(_ & _ & ->)|(N & _)]; [reflexivity|congruence].
      * intros N. exfalso. apply (N c0). apply in_or_app. right. now left.
    + split.
      * intros c Hc. apply given_snoc in Hc as [(-> & -> & _)|(_ & Hc)]; [congruence|auto].
      * intros N. apply G2. intros c Hc. apply (N c). apply in_or_app. now left.
Qed.

(** ** Reading the section back *)
Definition has_matrix (n : Z) (ms : matrix_source) : Prop :=
  ms_header ms = [n; n] /\ 0 < n /\ Forall (cell_line n n) (ms_lines ms) /\ exists c, In [n - 1; n - 1; c] (ms_lines ms).

Lemma convert_matrix_ok n ms h m : has_matrix n ms -> convert_matrix ms = Ok (h, m) ->
  exists cells b1 b2, h = b1 ++ b2 /\ put_short n = Ok b1 /\ put_short n = Ok b2 /\ m = enc cells /\
    Forall short_range cells /\ Z.of_nat (length cells) = n * n /\
    forall l r, 0 <= l < n -> 0 <= r < n ->
       (forall c, given (ms_lines ms) l r c -> nth_error cells (Z.to_nat (l + n * r)) = Some c) /\
       (not_given (ms_lines ms) l r -> nth_error cells (Z.to_nat (l + n * r)) = Some 0).
Proof.
  intros (E & Hn & F & c & Hc) H. unfold convert_matrix in H. rewrite E in H.
  apply bind_ok in H as (b1 & H1 & H). apply bind_ok in H as (b2 & H2 & H). apply bind_ok in H as (f & Hf & [= <- <-]).
  destruct (matrix_cells n n _ _ Hf F) as (cells & -> & R & L & S & G).
  exists cells, b1, b2. cbn [f_data]. apply S in Hc.
  assert (LC : Z.of_nat (length cells) = n * n) by nia.
  repeat (split; [auto; fail|]).
  intros l r Hl Hr. destruct (G l r Hl Hr) as [G1 G2].
  assert (B : (Z.to_nat (l + n * r) < length cells)%nat) by nia.
  split; intros; rewrite (nth_error_nth' cells 0) by auto; f_equal; auto.
Qed.

Lemma view_index_in size i : 0 <= i < size -> view_index size i = Some (Z.to_nat i).
Proof. intros H. unfold view_index. leb_f i (-1). destruct (Z.ltb_spec i 0); [lia|]. leb_t 0 i. now destruct (Z.ltb_spec i size); [|lia]. Qed.
Lemma view_matrix_ok d off n cells : 0 < n -> Z.of_nat (length cells) = n * n -> Forall short_range cells ->
  At d off (enc cells) -> view_matrix d off n n = Ok cells.
Proof.
  intros Hn L R A. unfold view_matrix.
  replace (n * n =? 0) with false by (symmetry; apply Z.eqb_neq; nia).
  replace (n <? 0) with false by (symmetry; apply Z.ltb_ge; lia). cbn [orb].
  assert (E : (2 * Z.to_nat (n * n))%nat = length (enc cells)) by (rewrite enc_length; lia).
  rewrite E, (At_slice _ _ _ A), Nat.eqb_refl. now apply shorts_enc.
Qed.

(** The matrix part of a grammar is the matrix of the source. *)
Definition matrix_of (g : grammar) (n : Z) (ms : matrix_source) : Prop :=
  g_lsize g = n /\ g_rsize g = n /\
  forall l r, 0 <= l < n -> 0 <= r < n ->
    (forall c, given (ms_lines ms) l r c -> get_connect_cost g l r = Ok c) /\
    (not_given (ms_lines ms) l r -> get_connect_cost g l r = Ok 0).

Lemma write_grammar_reads table ms d f :
  write_grammar table ms (File d (length d)) = Ok f -> Forall readable_pos table ->
  (forall m, ms = Some m -> exists n, has_matrix n m) ->
  exists b, f = File (d ++ b) (length (d ++ b)) /\
    forall rest p, (p <= length (d ++ b ++ rest))%nat ->
    exists g, prun (d ++ b ++ rest) p (read_grammar (d ++ b ++ rest) (length d)) = (p, Ok g) /\
      g_pos g = map (split_on comma) table /\ g_storage g = length b /\
      (ms = None -> g_lsize g = 0 /\ g_rsize g = 0) /\
      (forall m n, ms = Some m -> has_matrix n m -> matrix_of g n m).
Proof.
  intros H F HM. unfold write_grammar in H. apply bind_ok in H as (pt & Hpt & H).
  rewrite f_write_end in H by reflexivity. cbn [f_data] in H.
  destruct (convert_postable_reads _ _ Hpt F) as (b1 & b2 & -> & Hb1 & R2).
  pose proof (put_short_reads _ _ Hb1) as R1.
  destruct ms as [ms|].
  - destruct (HM _ eq_refl) as (n & Hms). apply bind_ok in H as ((h & m) & Hcm & [= <-]).
    destruct (convert_matrix_ok _ _ _ _ Hms Hcm) as (cells & s1 & s2 & -> & Hs1 & Hs2 & -> & Rg & L & G).
    pose proof (put_short_reads _ _ Hs1) as R3. pose proof (put_short_reads _ _ Hs2) as R4.
    assert (Hn : 0 < n) by apply Hms.
    rewrite (f_write_end (File _ _)) by reflexivity. cbn [f_data]. rewrite f_write_end by reflexivity. cbn [f_data].
    exists ((b1 ++ b2) ++ (s1 ++ s2) ++ enc cells). split; [now rewrite <- !app_assoc|].
    intros rest p Hp. set (D := d ++ _ ++ rest) in *.
    assert (A0 : At D (length d) ((b1 ++ b2) ++ (s1 ++ s2) ++ enc cells)) by apply At_mid.
    apply At_app in A0 as [A0 A3]. apply At_app in A0 as [A1 A2].
    apply At_app in A3 as [A3 A5]. apply At_app in A3 as [A3 A4]. 
    unfold read_grammar. rewrite prun_bind. cbn [ptell prun]. rewrite prun_bind. unfold pseek.
    rewrite prun_seek by (apply At_length in A1; lia). cbn [prun]. rewrite Nat2Z.id.
    rewrite prun_bind, (R1 _ _ A1), Nat2Z.id. rewrite prun_bind, (R2 _ _ A2).
    replace (length d + length b1 + length b2)%nat with (length d + length (b1 ++ b2))%nat by (rewrite app_length; lia).
    rewrite prun_bind, (R3 _ _ A3). rewrite prun_bind, (R4 _ _ A4).
    rewrite prun_bind. cbn [ptell prun].
    replace (length d + length (b1 ++ b2) + length s1 + length s2)%nat with (length d + length (b1 ++ b2) + length (s1 ++ s2))%nat
      by (rewrite (app_length s1); lia).
    rewrite prun_bind, (view_matrix_ok _ _ _ _ Hn L Rg A5). cbn [plift prun].
    rewrite prun_bind, prun_seek by lia. cbn [prun]. rewrite Nat2Z.id.
    eexists. split; [reflexivity|]. cbn [g_pos g_storage g_lsize g_rsize]. split; [reflexivity|]. split.
    { rewrite !app_length, enc_length. lia. }
    split; [discriminate|]. intros m' n' [= <-] Hms'.
    assert (n' = n) as -> by (destruct Hms' as (E' & _), Hms as (E & _); rewrite E in E'; now inversion E').
    split; [reflexivity|]. split; [reflexivity|]. intros l r Hl Hr.
    unfold get_connect_cost. cbn [g_lsize g_rsize g_matrix].
    replace (n * n =? 0) with false by (symmetry; apply Z.eqb_neq; nia).
    rewrite !view_index_in by lia.
    replace (Z.to_nat r * Z.to_nat n + Z.to_nat l)%nat with (Z.to_nat (l + n * r)) by nia. destruct (G l r Hl Hr) as [G1 G2].
    unfold get. split; intros; [rewrite (G1 c)|rewrite G2]; auto.
  - apply bind_ok in H as (s1 & Hs1 & H). apply bind_ok in H as (s2 & Hs2 & [= <-]).
    pose proof (put_short_reads _ _ Hs1) as R3. pose proof (put_short_reads _ _ Hs2) as R4.
    rewrite f_write_end by reflexivity. cbn [f_data].
    exists ((b1 ++ b2) ++ s1 ++ s2). split; [now rewrite <- !app_assoc|].
    intros rest p Hp. set (D := d ++ _ ++ rest) in *.
    assert (A0 : At D (length d) ((b1 ++ b2) ++ s1 ++ s2)) by apply At_mid.
    apply At_app in A0 as [A0 A3]. apply At_app in A0 as [A1 A2]. apply At_app in A3 as [A3 A4].
    unfold read_grammar. rewrite prun_bind. cbn [ptell prun]. rewrite prun_bind. unfold pseek.
    rewrite prun_seek by (apply At_length in A1; lia). cbn [prun]. rewrite Nat2Z.id.
    rewrite prun_bind, (R1 _ _ A1), Nat2Z.id. rewrite prun_bind, (R2 _ _ A2).
    replace (length d + length b1 + length b2)%nat with (length d + length (b1 ++ b2))%nat by (rewrite app_length; lia).
    rewrite prun_bind, (R3 _ _ A3). rewrite prun_bind, (R4 _ _ A4).
    rewrite prun_bind. cbn [ptell prun]. rewrite prun_bind. cbn [view_matrix Z.mul Z.eqb plift prun].
    rewrite prun_bind, prun_seek by lia. cbn [prun]. rewrite Nat2Z.id.
    eexists. split; [reflexivity|]. cbn [g_pos g_storage g_lsize g_rsize]. split; [reflexivity|]. split.
    { rewrite !app_length. cbn. lia. }
    split; [auto|discriminate].
Qed.
