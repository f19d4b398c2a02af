(** Proofs for the input-text plugins. *)
From Coq Require Import List ZArith Lia Bool Arith.
From Verif Require Import Base Utf8 M_Builder S_Text P_Builder M_InputPlugins S_Plugins.
Import ListNotations.
Open Scope Z_scope.

Lemma text_eqb_eq a b : text_eqb a b = true <-> a = b.
Proof. apply list_eqb_spec. intros. apply Z.eqb_eq. Qed.

Lemma text_eqb_refl a : text_eqb a a = true.
Proof. now apply text_eqb_eq. Qed.

Lemma text_eqb_neq a b : text_eqb a b = false <-> a <> b.
Proof.
  split.
  - intros H E. apply text_eqb_eq in E. congruence.
  - intros H. destruct (text_eqb a b) eqn:E; auto. apply text_eqb_eq in E. congruence.
Qed.

Lemma assoc_text_In k m v : assoc_text k m = Some v -> In (k, v) m.
Proof.
  induction m as [|(k', v') m IH]; simpl; [discriminate|].
  destruct (text_eqb k k') eqn:E.
  - intros [= ->]. apply text_eqb_eq in E. subst. now left.
  - intros H. right. auto.
Qed.

Lemma assoc_text_None k m : assoc_text k m = None -> forall v, ~ In (k, v) m.
Proof.
  induction m as [|(k', v') m IH]; simpl; [tauto|].
  destruct (text_eqb k k') eqn:E; [discriminate|].
  intros H v [[= -> ->]|Hin].
  - rewrite text_eqb_refl in E. discriminate.
  - eapply IH; eauto.
Qed.

Lemma assoc_text_complete k v m :
  NoDup (map fst m) -> In (k, v) m -> assoc_text k m = Some v.
Proof.
  induction m as [|(k', v') m IH]; simpl; [tauto|].
  intros Hnd [[= -> ->]|Hin].
  - now rewrite text_eqb_refl.
  - inversion Hnd; subst. destruct (text_eqb k k') eqn:E.
    + apply text_eqb_eq in E. subst. exfalso. apply H1. apply in_map_iff. exists (k', v). auto.
    + auto.
Qed.

(** The configuration read from rewrite.def: keys distinct and non-empty, and
    [key_lengths] bounds the keys by first character. *)
Definition cfg_ok (cfg : default_cfg) : Prop :=
  NoDup (map fst (d_map cfg)) /\
  forall k v, In (k, v) (d_map cfg) ->
    exists c r, k = c :: r /\ (length k <= keylen c (d_keylen cfg))%nat.

Lemma read_line_ok cfg cols cfg' : cfg_ok cfg -> read_line cfg cols = Ok cfg' -> cfg_ok cfg'.
Proof.
  intros (Hnd & Hkl) H. unfold read_line in H.
  destruct cols as [|k [|v [|]]]; try discriminate.
  - destruct (length k =? 1)%nat; [|discriminate]. injection H as <-. split; auto.
  - destruct (assoc_text k (d_map cfg)) eqn:Ea; [discriminate|].
    destruct k as [|c r]; [discriminate|]. injection H as <-. split; cbn [d_map d_keylen].
    + simpl. constructor; auto. rewrite in_map_iff. intros ((k', v') & E & Hin). simpl in E. subst k'.
      eapply assoc_text_None; eauto.
    + set (kl := if (keylen c (d_keylen cfg) <? length (c :: r))%nat
                 then (c, length (c :: r)) :: d_keylen cfg else d_keylen cfg).
      assert (Hmono : forall c', (keylen c' (d_keylen cfg) <= keylen c' kl)%nat).
      { intros c'. unfold kl. destruct (Nat.ltb_spec (keylen c (d_keylen cfg)) (length (c :: r))); [|lia].
        cbn [keylen]. destruct (Z.eqb_spec c' c); [subst; lia|lia]. }
      assert (Hnew : (length (c :: r) <= keylen c kl)%nat).
      { unfold kl. destruct (Nat.ltb_spec (keylen c (d_keylen cfg)) (length (c :: r))); [|auto].
        cbn [keylen]. rewrite Z.eqb_refl. lia. }
      intros k' v' [[= <- <-]|Hin].
      * exists c, r. split; [reflexivity|exact Hnew].
      * destruct (Hkl _ _ Hin) as (c' & r' & -> & Hle). exists c', r'. split; auto.
        exact (Nat.le_trans _ _ _ Hle (Hmono c')).
Qed.

Lemma read_rewrite_lists_ok lines cfg : read_rewrite_lists lines = Ok cfg -> cfg_ok cfg.
Proof.
  unfold read_rewrite_lists.
  assert (H0 : cfg_ok {| d_ignore := []; d_keylen := []; d_map := [] |}).
  { split; [constructor|]. intros k v []. }
  revert H0. generalize {| d_ignore := []; d_keylen := []; d_map := [] |}.
  induction lines as [|l lines IH]; simpl; intros c0 H0 H.
  - now inversion H; subst.
  - apply bind_ok in H as (c1 & H1 & H). eapply IH; [|exact H]. eapply read_line_ok; eauto.
Qed.

(** The entries of the dict are exactly those of the file. *)
Lemma read_rewrite_lists_entries lines cfg :
  read_rewrite_lists lines = Ok cfg ->
  (forall k v, In (k, v) (d_map cfg) <-> In [k; v] lines) /\
  (forall x, In x (d_ignore cfg) <-> In [x] lines).
Proof.
  unfold read_rewrite_lists.
  assert (G : forall lines c0, foldM read_line c0 lines = Ok cfg ->
     (forall k v, In (k, v) (d_map cfg) <-> In (k, v) (d_map c0) \/ In [k; v] lines) /\
     (forall x, In x (d_ignore cfg) <-> In x (d_ignore c0) \/ In [x] lines)).
  { clear lines. induction lines as [|l lines IH]; simpl; intros c0 H.
    - inversion H; subst. split; intros; tauto.
    - apply bind_ok in H as (c1 & H1 & H). destruct (IH _ H) as (A & B).
      unfold read_line in H1. destruct l as [|k [|v [|]]]; try discriminate.
      + destruct (length k =? 1)%nat; [|discriminate]. injection H1 as <-. cbn [d_map d_ignore] in *.
        split.
        * intros k' v'. rewrite A. split; [tauto|]. intros [?|[?|?]]; auto; discriminate.
        * intros x. rewrite B. simpl. split.
          -- intros [[->|?]|?]; auto.
          -- intros [?|[[= ->]|?]]; auto.
      + destruct (assoc_text k (d_map c0)); [discriminate|].
        destruct k as [|c r]; [discriminate|]. injection H1 as <-. cbn [d_map d_ignore] in *.
        split.
        * intros k' v'. rewrite A. simpl. split.
          -- intros [[[= <- <-]|?]|?]; auto.
          -- intros [?|[[= -> ->]|?]]; auto.
        * intros x. rewrite B. split; [tauto|]. intros [?|[?|?]]; auto; discriminate. }
  intros H. destruct (G _ _ H) as (A & B). split; intros; rewrite ?A, ?B; simpl; tauto.
Qed.

Lemma is_prefix_firstn k t : is_prefix k t <-> (length k <= length t)%nat /\ firstn (length k) t = k.
Proof.
  split.
  - intros (r & ->). rewrite app_length. split; [lia|].
    now rewrite firstn_app, firstn_all, Nat.sub_diag, app_nil_r.
  - intros (_ & H). exists (skipn (length k) t). rewrite <- H at 1. symmetry. apply firstn_skipn.
Qed.

Lemma find_key_some m rest l n v :
  find_key m rest l = Some (n, v) -> (l <= length rest)%nat ->
  (1 <= n <= l)%nat /\ assoc_text (firstn n rest) m = Some v /\ v <> [] /\
  forall n' v', (n < n' <= l)%nat -> assoc_text (firstn n' rest) m = Some v' -> v' = [].
Proof.
  induction l as [|l IH]; cbn [find_key]; [discriminate|]. intros H Hl.
  destruct (assoc_text (firstn (S l) rest) m) as [[|c v0]|] eqn:E.
  - destruct (IH H ltac:(lia)) as (A & B & C & D). repeat split; auto; try lia.
    intros n' v' Hn' Hv'. destruct (Nat.eq_dec n' (S l)) as [->|]; [congruence|]. eapply D; eauto. lia.
  - injection H as <- <-. repeat split; auto; try lia; try discriminate.
  - destruct (IH H ltac:(lia)) as (A & B & C & D). repeat split; auto; try lia.
    intros n' v' Hn' Hv'. destruct (Nat.eq_dec n' (S l)) as [->|]; [congruence|]. eapply D; eauto. lia.
Qed.

Lemma find_key_none m rest l :
  find_key m rest l = None -> forall n v, (1 <= n <= l)%nat -> assoc_text (firstn n rest) m = Some v -> v = [].
Proof.
  induction l as [|l IH]; cbn [find_key]; intros H n v Hn Hv; [lia|].
  destruct (Nat.eq_dec n (S l)) as [->|].
  - rewrite Hv in H. destruct v; auto. discriminate.
  - apply (IH) with n; auto; try lia.
    destruct (assoc_text (firstn (S l) rest) m) as [[|]|]; auto; discriminate.
Qed.

Section default.
Variable lower : Z -> text.
Variable nfkc : text -> text.
Hypothesis lower_nonempty : forall c, lower c <> [].
Hypothesis nfkc_nonempty : forall t, t <> [] -> nfkc t <> [].

Definition char_out (ignore : list text) (c : Z) : text :=
  if in_set (lower c) ignore then lower c else nfkc (lower c).

Lemma char_out_nonempty ig c : char_out ig c <> [].
Proof. unfold char_out. destruct (in_set _ _); auto. Qed.

(** Replacing the front part [x] of the untouched suffix, at the current point. *)
Lemma replace_at t0 bd out x rest s i offset :
  rewritten t0 bd -> b_mod bd = out ++ x ++ rest -> x <> [] -> s <> [] ->
  Z.of_nat (length out) = Z.of_nat i + offset ->
  exists bd', replace bd (Z.of_nat i + offset) (Z.of_nat i + Z.of_nat (length x) + offset) s = Ok bd' /\
    rewritten t0 bd' /\ b_mod bd' = (out ++ s) ++ rest.
Proof.
  intros Hrw Hm Hx Hs Ho.
  assert (Hlx : (1 <= length x)%nat) by (destruct x; [congruence|simpl; lia]).
  assert (Hlen : length (b_mod bd) = (length out + length x + length rest)%nat)
    by (rewrite Hm, !app_length; lia).
  destruct (replace_legal t0 bd (Z.of_nat i + offset) (Z.of_nat i + Z.of_nat (length x) + offset) s)
    as (mb & me & _ & _ & E); auto; try lia.
  { now apply rewritten_wf. }
  eexists. split; [exact E|]. split.
  - eapply rw_replace; [exact Hrw| |exact Hs|exact E]. lia.
  - cbn [b_mod].
    replace (Z.to_nat (Z.of_nat i + offset)) with (length out) by lia.
    replace (min (Z.to_nat (Z.of_nat i + Z.of_nat (length x) + offset)) (length (b_mod bd)))
      with (length (out ++ x)) by (rewrite app_length; lia).
    rewrite Hm at 1. rewrite firstn_app, firstn_all, Nat.sub_diag. simpl. rewrite app_nil_r.
    rewrite Hm. rewrite (app_assoc out x rest), skipn_app, skipn_all, Nat.sub_diag. simpl.
    now rewrite app_assoc.
Qed.

Lemma default_loop_spec cfg fuel rest t0 bd out i offset :
  cfg_ok cfg -> (length rest <= fuel)%nat ->
  rewritten t0 bd -> b_mod bd = out ++ rest ->
  Z.of_nat (length out) = Z.of_nat i + offset ->
  exists bd' out', default_loop lower nfkc fuel cfg rest i offset bd = Ok bd' /\
    rewritten t0 bd' /\ b_mod bd' = out ++ out' /\
    normalised (d_map cfg) (char_out (d_ignore cfg)) rest out'.
Proof.
  intros (Hnd & Hkl). revert rest bd out i offset.
  induction fuel as [|f IH]; intros rest bd out i offset Hf Hrw Hm Ho.
  { destruct rest; [|simpl in Hf; lia]. exists bd, []. repeat split; auto. constructor. }
  destruct rest as [|c tl].
  { exists bd, []. repeat split; auto. constructor. }
  cbn [default_loop].
  set (rest := c :: tl) in *.
  set (ml := min (keylen c (d_keylen cfg)) (length rest)).
  destruct (find_key (d_map cfg) rest ml) as [(l, rep)|] eqn:Ef.
  - apply find_key_some in Ef as (Hl & Ha & Hne & Hmax); [|lia].
    set (x := firstn l rest) in *.
    assert (Hlx : length x = l) by (unfold x; rewrite firstn_length; lia).
    assert (Hsplit : rest = x ++ skipn l rest) by (symmetry; apply firstn_skipn).
    assert (Hx : x <> []) by (intros E; rewrite E in Hlx; simpl in Hlx; lia).
    destruct (replace_at t0 bd out x (skipn l rest) rep i offset) as (bd1 & E1 & Hrw1 & Hm1); auto.
    { now rewrite <- Hsplit. }
    rewrite Hlx in E1. rewrite E1. cbn [bind].
    destruct (IH (skipn l rest) bd1 (out ++ rep) (i + l)%nat (offset + (Z.of_nat (length rep) - Z.of_nat l)))
      as (bd' & out' & E2 & Hrw2 & Hm2 & Hn2); auto.
    { rewrite skipn_length. lia. }
    { rewrite app_length. lia. }
    exists bd', (rep ++ out'). split; [exact E2|]. split; [exact Hrw2|].
    split; [now rewrite Hm2, app_assoc|].
    rewrite Hsplit. apply norm_key; auto.
    + now apply assoc_text_In.
    + intros k' v' Hin' Hv' Hp. rewrite <- Hsplit in Hp. rewrite Hlx.
      destruct (le_lt_dec (length k') l); auto. exfalso. apply Hv'.
      apply is_prefix_firstn in Hp as (Hp1 & Hp2).
      apply Hmax with (length k').
      * split; auto. unfold ml. apply Nat.min_glb; auto.
        destruct (Hkl _ _ Hin') as (c' & r' & -> & Hle).
        assert (c' = c) by (simpl in Hp2; congruence). subst c'. exact Hle.
      * rewrite Hp2. now apply assoc_text_complete.
  - assert (Hnone : forall k' v', In (k', v') (d_map cfg) -> v' <> [] -> ~ is_prefix k' rest).
    { intros k' v' Hin' Hv' Hp. apply Hv'.
      apply is_prefix_firstn in Hp as (Hp1 & Hp2).
      destruct (Hkl _ _ Hin') as (c' & r' & -> & Hle).
      assert (c' = c) by (simpl in Hp2; congruence). subst c'.
      eapply (find_key_none _ _ _ Ef (length (c :: r'))).
      - unfold ml. simpl in *. lia.
      - rewrite Hp2. now apply assoc_text_complete. }
    destruct (in_set (lower c) (d_ignore cfg) && text_eqb [c] (lower c)) eqn:Eig.
    + apply andb_true_iff in Eig as (Ei & Ee). apply text_eqb_eq in Ee.
      destruct (IH tl bd (out ++ [c]) (S i) offset) as (bd' & out' & E2 & Hrw2 & Hm2 & Hn2); auto.
      { simpl in Hf. lia. }
      { rewrite Hm, <- app_assoc. reflexivity. }
      { rewrite app_length. cbn [length]. lia. }
      exists bd', ([c] ++ out'). split; [exact E2|]. split; [exact Hrw2|].
      split; [now rewrite Hm2, <- app_assoc|].
      replace [c] with (char_out (d_ignore cfg) c).
      * apply norm_char; auto.
      * unfold char_out. now rewrite Ei.
    + set (rep := if in_set (lower c) (d_ignore cfg) then lower c else nfkc (lower c)).
      assert (Hrep : rep = char_out (d_ignore cfg) c) by reflexivity.
      assert (Hrne : rep <> []) by (rewrite Hrep; apply char_out_nonempty).
      assert (Hstep : exists bd1, (if text_eqb [c] rep then Ok bd
                  else replace bd (Z.of_nat i + offset) (Z.of_nat i + 1 + offset) rep) = Ok bd1 /\
                  rewritten t0 bd1 /\ b_mod bd1 = (out ++ rep) ++ tl).
      { destruct (text_eqb [c] rep) eqn:Ec.
        - apply text_eqb_eq in Ec. exists bd. repeat split; auto. rewrite <- Ec, <- app_assoc. exact Hm.
        - destruct (replace_at t0 bd out [c] tl rep i offset) as (bd1 & E1 & Hrw1 & Hm1); auto; try discriminate.
          exists bd1. repeat split; auto. }
      destruct Hstep as (bd1 & E1 & Hrw1 & Hm1). rewrite E1. cbn [bind].
      destruct (IH tl bd1 (out ++ rep) (S i) (offset + (Z.of_nat (length rep) - 1)))
        as (bd' & out' & E2 & Hrw2 & Hm2 & Hn2); auto.
      { simpl in Hf. lia. }
      { rewrite app_length. lia. }
      exists bd', (rep ++ out'). split; [exact E2|]. split; [exact Hrw2|].
      split; [now rewrite Hm2, app_assoc|]. rewrite Hrep. apply norm_char; auto.
Qed.

Lemma default_rewrite_spec cfg t0 bd :
  cfg_ok cfg -> rewritten t0 bd ->
  exists bd', default_rewrite lower nfkc cfg bd = Ok bd' /\ rewritten t0 bd' /\
    normalised (d_map cfg) (char_out (d_ignore cfg)) (b_mod bd) (b_mod bd').
Proof.
  intros Hc Hr.
  destruct (default_loop_spec cfg (length (b_mod bd)) (b_mod bd) t0 bd [] 0%nat 0)
    as (bd' & out' & E & Hrw & Hm & Hn); auto.
  exists bd'. split; [exact E|]. split; auto. simpl in Hm. rewrite Hm. exact Hn.
Qed.
End default.

(** The specification determines the output. *)
Lemma normalised_functional entries co t o1 o2 :
  (forall k v v', In (k, v) entries -> In (k, v') entries -> v = v') ->
  normalised entries co t o1 -> normalised entries co t o2 -> o1 = o2.
Proof.
  intros Hf H1. revert o2.
  induction H1 as [|k v t out Hin Hv Hk Hmax Hn IH|c t out Hno Hn IH]; intros o2 H2.
  - inversion H2; auto. exfalso. destruct k; [congruence|discriminate].
  - inversion H2 as [Hnil|k' v' t' out' Hin' Hv' Hk' Hmax' Hn' Et|c' t' out' Hno' Hn' Et].
    + exfalso. destruct k; [congruence|discriminate].
    + assert (Hl : length k = length k').
      { apply Nat.le_antisymm.
        - apply (Hmax' k v Hin Hv). rewrite Et. exists t. reflexivity.
        - apply (Hmax k' v' Hin' Hv'). rewrite <- Et. exists t'. reflexivity. }
      assert (k = k' /\ t = t').
      { symmetry in Et. revert Et Hl. clear. revert k'. induction k; destruct k'; simpl; intros E L; try discriminate; auto.
        injection E as -> E. destruct (IHk k' E) as (-> & ->); [lia|auto]. }
      destruct H as (-> & ->). rewrite (Hf _ _ _ Hin Hin'). f_equal. auto.
    + exfalso. eapply Hno'; [exact Hin|exact Hv|]. rewrite Et. exists t. reflexivity.
  - inversion H2 as [|k' v' t' out' Hin' Hv' Hk' Hmax' Hn' Et|c' t' out' Hno' Hn' Et].
    + exfalso. eapply Hno; [exact Hin'|exact Hv'|]. rewrite <- Et. exists t'. reflexivity.
    + subst. f_equal. auto.
Qed.

Section psm.
Variable cfg : psm_cfg.
Variable sym : Z.
Hypothesis one_symbol : psm_symbol cfg = [sym].
Let mark (c : Z) : Prop := In c (psm_set cfg).

Lemma is_psm_spec c : is_psm cfg c = true <-> mark c.
Proof.
  unfold is_psm, mark. rewrite existsb_exists. split.
  - intros (x & H & E). apply Z.eqb_eq in E. now subst.
  - intros H. exists c. split; auto. apply Z.eqb_refl.
Qed.

Lemma is_psm_false c : is_psm cfg c = false <-> ~ mark c.
Proof. rewrite <- is_psm_spec. destruct (is_psm cfg c); intuition congruence. Qed.

(** [run]: marks seen since [m]; builder text = out ++ run ++ rest. *)
Lemma psm_loop_spec rest t0 bd out run i offset :
  rewritten t0 bd -> b_mod bd = out ++ run ++ rest -> Forall mark run ->
  Z.of_nat (length out) + Z.of_nat (length run) = Z.of_nat i - offset ->
  (length run <= i)%nat ->
  exists bd' out',
    psm_loop cfg rest i offset (match run with [] => None | _ => Some (i - length run)%nat end) bd = Ok bd' /\
    rewritten t0 bd' /\ b_mod bd' = out ++ out' /\ collapsed mark [sym] (run ++ rest) out'.
Proof.
  revert bd out run i offset. induction rest as [|c tl IH]; intros bd out run i offset Hrw Hm Hrun Ho Hi.
  - cbn [psm_loop]. rewrite app_nil_r in *.
    destruct run as [|r0 run'].
    { exists bd, []. repeat split; auto. constructor. }
    set (run := r0 :: run') in *.
    replace (i - (i - length run))%nat with (length run) by lia.
    destruct (Nat.ltb_spec 1 (length run)) as [H1|H1].
    + destruct (replace_at t0 bd out run [] [sym] (i - length run)%nat (- offset)) as (bd' & E & Hrw' & Hm'); auto; try discriminate.
      { now rewrite app_nil_r. }
      { lia. }
      exists bd', [sym]. rewrite one_symbol. split.
      { rewrite <- E. f_equal; lia. }
      split; auto. split; [now rewrite Hm', app_nil_r|].
      assert (Em : (match run with [c] => [c] | _ => [sym] end) = [sym]).
      { unfold run in *. destruct run'; [simpl in H1; lia|reflexivity]. }
      assert (HC : collapsed mark [sym] (run ++ []) ((match run with [c] => [c] | _ => [sym] end) ++ [])).
      { apply col_run; auto; try discriminate. constructor. }
      rewrite Em, !app_nil_r in HC. exact HC.
    + exists bd, run. split; [reflexivity|]. split; auto. split; [exact Hm|].
      assert (run' = []) by (destruct run'; [auto|simpl in H1; lia]).
      assert (Em : (match run with [c] => [c] | _ => [sym] end) = run).
      { unfold run. now rewrite H. }
      assert (HC : collapsed mark [sym] (run ++ []) ((match run with [c] => [c] | _ => [sym] end) ++ [])).
      { apply col_run; auto; try discriminate. constructor. }
      rewrite Em, !app_nil_r in HC. exact HC.
  - cbn [psm_loop].
    destruct run as [|r0 run'].
    + (* not in a run *)
      cbn [app length] in Hm, Ho. destruct (is_psm cfg c) eqn:Ec.
      * destruct (IH bd out [c] (S i) offset) as (bd' & out' & E & A & B & C); auto.
        { constructor; auto. now apply is_psm_spec. }
        { cbn [length]. lia. }
        { cbn [length]. lia. }
        exists bd', out'. split; [|auto]. rewrite <- E. f_equal. f_equal. simpl. lia.
      * destruct (IH bd (out ++ [c]) [] (S i) offset) as (bd' & out' & E & A & B & C); auto.
        { rewrite Hm, <- app_assoc. reflexivity. }
        { rewrite app_length. cbn [length]. lia. }
        exists bd', (c :: out'). split; [exact E|]. split; auto.
        split; [rewrite B, <- app_assoc; reflexivity|].
        simpl. apply col_other; auto. now apply is_psm_false.
    + set (run := r0 :: run') in *.
      destruct (is_psm cfg c) eqn:Ec.
      * destruct (IH bd out (run ++ [c]) (S i) offset) as (bd' & out' & E & A & B & C); auto.
        { rewrite Hm, <- app_assoc. reflexivity. }
        { apply Forall_app. split; auto. constructor; auto. now apply is_psm_spec. }
        { rewrite app_length. cbn [length] in *. lia. }
        { rewrite app_length. simpl. simpl in Hi. lia. }
        exists bd', out'. split.
        { rewrite <- E. unfold run. cbn [app]. f_equal. f_equal. simpl. rewrite app_length. simpl. lia. }
        split; auto. split; auto. rewrite <- app_assoc in C. exact C.
      * assert (Hnc : ~ mark c) by now apply is_psm_false.
        replace (i - (i - length run))%nat with (length run) by lia.
        destruct (Nat.ltb_spec 1 (length run)) as [H1|H1].
        -- destruct (replace_at t0 bd out run (c :: tl) [sym] (i - length run)%nat (- offset))
             as (bd1 & E1 & Hrw1 & Hm1); auto; try discriminate.
           { lia. }
           rewrite one_symbol.
           replace (Z.of_nat (i - length run) - offset) with (Z.of_nat (i - length run) + - offset) by lia.
           replace (Z.of_nat i - offset) with (Z.of_nat (i - length run) + Z.of_nat (length run) + - offset) by lia.
           rewrite E1. cbn [bind].
           destruct (IH bd1 ((out ++ [sym]) ++ [c]) [] (S i) (offset + (Z.of_nat i - Z.of_nat (i - length run) - 1)))
             as (bd' & out' & E & A & B & C); auto.
           { rewrite Hm1, <- !app_assoc. reflexivity. }
           { rewrite !app_length. cbn [length] in *. lia. }
           { cbn [length]. lia. }
           exists bd', (sym :: c :: out'). split; [exact E|]. split; auto.
           split; [rewrite B, <- !app_assoc; reflexivity|].
           assert (Em : (match run with [x] => [x] | _ => [sym] end) = [sym]).
           { unfold run in *. destruct run'; [simpl in H1; lia|reflexivity]. }
           assert (HC : collapsed mark [sym] (run ++ c :: tl) ((match run with [x] => [x] | _ => [sym] end) ++ c :: out')).
           { apply col_run; auto; try discriminate.
             - intros c' t' [= <- <-]. exact Hnc.
             - apply col_other; auto. }
           rewrite Em in HC. exact HC.
        -- assert (Hr' : run' = []) by (destruct run'; [auto|simpl in H1; lia]).
           destruct (IH bd (out ++ run ++ [c]) [] (S i) offset)
             as (bd' & out' & E & A & B & C); auto.
           { rewrite Hm, <- !app_assoc. reflexivity. }
           { rewrite !app_length. cbn [length] in *. lia. }
           { cbn [length]. lia. }
           exists bd', (run ++ c :: out'). split; [exact E|]. split; auto.
           split; [rewrite B, <- !app_assoc; reflexivity|].
           assert (Em : (match run with [x] => [x] | _ => [sym] end) = run).
           { unfold run. now rewrite Hr'. }
           assert (HC : collapsed mark [sym] (run ++ c :: tl) ((match run with [x] => [x] | _ => [sym] end) ++ c :: out')).
           { apply col_run; auto; try discriminate.
             - intros c' t' [= <- <-]. exact Hnc.
             - apply col_other; auto. }
           rewrite Em in HC. exact HC.
Qed.

Lemma psm_rewrite_spec t0 bd :
  rewritten t0 bd ->
  exists bd', psm_rewrite cfg bd = Ok bd' /\ rewritten t0 bd' /\ collapsed mark [sym] (b_mod bd) (b_mod bd').
Proof.
  intros Hr. destruct (psm_loop_spec (b_mod bd) t0 bd [] [] 0%nat 0) as (bd' & out' & E & A & B & C); auto.
  exists bd'. split; [exact E|]. split; auto. simpl in B, C. rewrite B. exact C.
Qed.
End psm.

(** The specification determines the output. *)
Lemma collapsed_functional mark sym t o1 o2 :
  (forall c, mark c \/ ~ mark c) ->
  collapsed mark sym t o1 -> collapsed mark sym t o2 -> o1 = o2.
Proof.
  intros Hdec H1. revert o2.
  induction H1 as [|c t out Hc Hn IH|r t out Hr Hf Hmax Hn IH]; intros o2 H2.
  - inversion H2; auto. exfalso. destruct r; [congruence|discriminate].
  - inversion H2 as [|c' t' out' Hc' Hn'|r' t' out' Hr' Hf' Hmax' Hn' Et]; subst.
    + f_equal; auto.
    + destruct r' as [|x r']; [congruence|]. injection Et as <- _. inversion Hf'; subst. tauto.
  - inversion H2 as [Hnil|c' t' out' Hc' Hn' Et|r' t' out' Hr' Hf' Hmax' Hn' Et].
    + exfalso. destruct r; [congruence|discriminate].
    + destruct r as [|x r]; [congruence|]. injection Et as <- _. inversion Hf; subst. tauto.
    + assert (r = r' /\ t = t').
      { clear - Hf Hf' Hmax Hmax' Et. symmetry in Et. revert r' Hf' Et.
        induction r as [|x r IHr]; intros r' Hf' Et.
        - destruct r' as [|y r']; [auto|]. simpl in Et. subst t. exfalso.
          inversion Hf'; subst. eapply Hmax; eauto.
        - destruct r' as [|y r'].
          + simpl in Et. exfalso. inversion Hf; subst. eapply Hmax'; eauto.
          + injection Et as <- Et. inversion Hf; inversion Hf'; subst.
            destruct (IHr ltac:(auto) r' ltac:(auto) Et) as (-> & ->). auto. }
      destruct H as (-> & ->). f_equal. auto.
Qed.
