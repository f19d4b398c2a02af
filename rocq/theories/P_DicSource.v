(** What the rows of a source become: entries and the keys of the trie. *)
From Coq Require Import List ZArith Lia Bool Arith Sorted.
From Verif Require Import Base Utf8 M_Builder M_Lattice M_Bytes P_Bytes M_DicReader M_DicBuilder P_DicFormat P_DicWrite P_DicOpen P_DicGrammar.
Import ListNotations.
Open Scope Z_scope.

(** ** Order of byte strings *)
Lemma bytes_lt_irrefl a : bytes_lt a a = false.
Proof. induction a; cbn [bytes_lt]; auto. rewrite Z.ltb_irrefl, Z.eqb_refl, IHa. reflexivity. Qed.
Lemma bytes_lt_cons x a y b : bytes_lt (x :: a) (y :: b) = true <-> x < y \/ x = y /\ bytes_lt a b = true.
Proof. cbn [bytes_lt]. rewrite orb_true_iff, andb_true_iff, Z.ltb_lt, Z.eqb_eq. tauto. Qed.
Lemma bytes_lt_trans a : forall b c, bytes_lt a b = true -> bytes_lt b c = true -> bytes_lt a c = true.
Proof.
  induction a as [|x a IH]; intros [|y b] [|z c]; cbn; try discriminate; auto.
  rewrite !orb_true_iff, !andb_true_iff, !Z.ltb_lt, !Z.eqb_eq.
  intros [H|[-> H]] [G|[-> G]]; [left; lia|left; lia|left; lia|right; split; eauto].
Qed.
Lemma bytes_lt_total a : forall b, a <> b -> bytes_lt a b = false -> bytes_lt b a = true.
Proof.
  induction a as [|x a IH]; intros [|y b] N; cbn; try congruence; auto.
  rewrite !orb_false_iff, !orb_true_iff, andb_true_iff, andb_false_iff, !Z.ltb_ge, !Z.ltb_lt, !Z.eqb_eq, Z.eqb_neq.
  intros [L E]. destruct (Z.eq_dec x y) as [->|]; [|left; lia]. right. split; auto.
  apply IH; [congruence|]. destruct E; [congruence|auto].
Qed.

(** ** The keys *)
Definition key_lt (a b : bytes * list nat) : Prop := bytes_lt (fst a) (fst b) = true.

Lemma add_key_head keys key w x l :
  StronglySorted key_lt keys -> Forall (key_lt (x, l)) keys -> bytes_lt x key = true ->
  Forall (key_lt (x, l)) (add_key keys key w).
Proof.
  induction keys as [|(y, m) keys IH]; intros S F L; cbn [add_key].
  - constructor; auto.
  - inversion S; subst. inversion F; subst. destruct (list_eqb Z.eqb key y); [constructor; auto|].
    destruct (bytes_lt key y); [constructor; auto|constructor; auto].
Qed.

Lemma add_key_sorted keys key w : StronglySorted key_lt keys -> StronglySorted key_lt (add_key keys key w).
Proof.
  induction keys as [|(x, l) keys IH]; intros S; cbn [add_key].
  - constructor; constructor.
  - inversion S as [|? ? S' F]; subst. destruct (list_eqb Z.eqb key x) eqn:E; [constructor; auto|].
    destruct (bytes_lt key x) eqn:L.
    + constructor; auto. constructor; [exact L|]. eapply Forall_impl; [|exact F].
      intros a Ha. eapply bytes_lt_trans; eauto.
    + constructor; [auto|]. apply add_key_head; auto. apply bytes_lt_total; auto.
      intros ->. rewrite (proj2 (teqb_eq x x) eq_refl : list_eqb Z.eqb x x = true) in E. discriminate.
Qed.

(** [w] is listed for [key] *)
Definition listed (keys : list (bytes * list nat)) (key : bytes) (w : nat) : Prop :=
  exists ws, In (key, ws) keys /\ In w ws.

Lemma add_key_listed keys key w : forall k x, listed (add_key keys key w) k x <-> listed keys k x \/ (k = key /\ x = w).
Proof.
  unfold listed. induction keys as [|(y, l) keys IH]; intros k x; cbn [add_key].
  - split.
    + intros (ws & [[= <- <-]|[]] & [<-|[]]). auto.
    + intros [(ws & [] & _)|[-> ->]]. exists [w]. split; now left.
  - destruct (list_eqb Z.eqb key y) eqn:E; [apply teqb_eq in E; subst y|destruct (bytes_lt key y)].
    + split.
      * intros (ws & [[= <- <-]|H] & Hx).
        -- apply in_app_or in Hx as [Hx|[<-|[]]]; auto. left. exists l. split; auto. now left.
        -- left. exists ws. split; auto. now right.
      * intros [(ws & [[= <- <-]|H] & Hx)|[-> ->]].
        -- exists (l ++ [w]). split; [now left|]. apply in_or_app. auto.
        -- exists ws. split; auto. now right.
        -- exists (l ++ [w]). split; [now left|]. apply in_or_app. right. now left.
    + split.
      * intros (ws & [[= <- <-]|H] & Hx); [destruct Hx as [<-|[]]; auto|left; eauto].
      * intros [(ws & H & Hx)|[-> ->]]; [exists ws; split; auto; now right|exists [w]; split; now left].
    + split.
      * intros (ws & [[= <- <-]|H] & Hx); [left; exists l; split; auto; now left|].
        destruct (proj1 (IH k x) (ex_intro _ ws (conj H Hx))) as [(ws' & H' & Hx')|]; auto.
        left. exists ws'. split; auto. now right.
      * intros [(ws & [[= <- <-]|H] & Hx)|H]; [exists l; split; auto; now left| |].
        -- destruct (proj2 (IH k x) (or_introl (ex_intro _ ws (conj H Hx)))) as (ws' & H' & Hx'). exists ws'. split; auto. now right.
        -- destruct (proj2 (IH k x) (or_intror H)) as (ws' & H' & Hx'). exists ws'. split; auto. now right.
Qed.

Lemma add_key_ascending keys key w n : (n <= w)%nat ->
  Forall (fun kw => StronglySorted lt (snd kw) /\ Forall (fun x => (x < n)%nat) (snd kw) /\ snd kw <> []) keys ->
  Forall (fun kw => StronglySorted lt (snd kw) /\ Forall (fun x => (x < S w)%nat) (snd kw) /\ snd kw <> []) (add_key keys key w).
Proof.
  intros Hn. 
  assert (W : forall kw : bytes * list nat, StronglySorted lt (snd kw) /\ Forall (fun x => (x < n)%nat) (snd kw) /\ snd kw <> [] ->
    StronglySorted lt (snd kw) /\ Forall (fun x => (x < S w)%nat) (snd kw) /\ snd kw <> []).
  { intros kw (A & B & C). repeat split; auto. eapply Forall_impl; [|exact B]. cbn. intros; lia. }
  assert (N : StronglySorted lt [w] /\ Forall (fun x => (x < S w)%nat) [w] /\ [w] <> []).
  { repeat split; try discriminate; repeat constructor. }
  induction keys as [|(y, l) keys IH]; intros F; cbn [add_key].
  - constructor; auto.
  - inversion F as [|? ? Fy F']; subst. destruct (list_eqb Z.eqb key y); [|destruct (bytes_lt key y)].
    + constructor; [|eapply Forall_impl; [exact W|auto]]. destruct Fy as (A & B & _). cbn [snd] in *. repeat split.
      * clear - A B Hn. induction l; cbn [app]; [repeat constructor|]. inversion A; inversion B; subst. constructor; auto.
        apply Forall_app. split; auto. constructor; [lia|constructor].
      * apply Forall_app. split; [eapply Forall_impl; [|exact B]; cbn; intros; lia|repeat constructor].
      * destruct l; discriminate.
    + constructor; auto. eapply Forall_impl; [exact W|auto].
    + constructor; [now apply W|auto].
Qed.

Section source.
Variable k : kind.
Variable py_int : text -> res Z.

(** What a successful [parse_line] guarantees of its entry *)
Definition entry_ok (e : entry) : Prop :=
  0 <= e_pos e /\ Z.of_nat (e_head_length e) < 32768 /\
  (forall h, e_headword e = Some h -> h <> [] /\ exists b, encode h = Ok b /\ length b = e_head_length e) /\
  Z.of_nat (length (e_surface e)) < 32768 /\ Z.of_nat (length (e_norm e)) < 32768 /\ Z.of_nat (length (e_reading e)) < 32768.

Lemma parse_line_ok table cols e table' : parse_line k py_int table cols = Ok (e, table') -> entry_ok e.
Proof.
  unfold parse_line. destruct (length cols <? 18)%nat; [discriminate|]. intros H.
  apply bind_ok in H as (cs & Hc & H). apply bind_ok in H as (head & Hh & H). cbv zeta in H.
  destruct (is_length_valid head (nth 4 cs []) (nth 11 cs []) (nth 12 cs [])) eqn:V; cbn [negb] in H; [|discriminate].
  destruct (nth 0 cs []) as [|c0 h0] eqn:E0; [discriminate|].
  apply bind_ok in H as (left & _ & H). apply bind_ok in H as (right & _ & H). apply bind_ok in H as (cost & _ & H).
  destruct (get_posid k table (slice cs 5 11)) as [pos tb]. destruct (pos <? 0) eqn:P; [discriminate|].
  apply bind_ok in H as (? & _ & H). apply bind_ok in H as (? & _ & H). apply bind_ok in H as (? & _ & H).
  destruct (_ && _); [discriminate|]. apply bind_ok in H as (syn & _ & H). apply bind_ok in H as (did & _ & H).
  match type of H with Ok (?x, _) = Ok _ => assert (Ee : e = x) by congruence end. clear H.
  unfold is_length_valid, STRING_MAX_LENGTH in V. apply andb_true_iff in V as [V V4]. apply andb_true_iff in V as [V V3]. apply andb_true_iff in V as [V1 V2].
  apply Z.leb_le in V1, V2, V3, V4. apply Z.ltb_ge in P. rewrite Ee. unfold entry_ok.
  cbn [e_pos e_head_length e_headword e_surface e_norm e_reading].
  split; [lia|]. split; [lia|]. split; [|repeat split; lia].
  intros h Eh. destruct (teqb _ _); [discriminate|]. assert (h = c0 :: h0) as -> by congruence. split; [discriminate|]. eauto.
Qed.

(** Entry [w] has the headword whose bytes are [key]. *)
Definition has_key (entries : list entry) (w : nat) (key : bytes) : Prop :=
  exists e h, nth_error entries w = Some e /\ e_headword e = Some h /\ encode h = Ok key.

Record source_ok (s : source) : Prop := {
  so_entries : Forall entry_ok (s_entries s);
  so_sorted : StronglySorted key_lt (s_keys s);
  so_listed : forall key w, listed (s_keys s) key w <-> has_key (s_entries s) w key;
  so_wids : Forall (fun kw => StronglySorted lt (snd kw) /\ Forall (fun x => (x < length (s_entries s))%nat) (snd kw) /\ snd kw <> []) (s_keys s);
}.

Lemma new_source_ok : source_ok new_source.
Proof.
  constructor; cbn [new_source s_entries s_keys]; try constructor.
  - intros (ws & [] & _).
  - intros (e & h & E & _). destruct w; discriminate.
Qed.

Lemma has_key_snoc entries e w key : has_key (entries ++ [e]) w key <->
  has_key entries w key \/ (w = length entries /\ exists h, e_headword e = Some h /\ encode h = Ok key).
Proof.
  unfold has_key. split.
  - intros (x & h & E & Hh & Ek). destruct (Nat.lt_ge_cases w (length entries)) as [L|L].
    + rewrite nth_error_app1 in E by auto. left. eauto.
    + rewrite nth_error_app2 in E by auto. destruct (w - length entries)%nat as [|m] eqn:Em.
      * cbn in E. injection E as <-. right. split; [lia|eauto].
      * destruct m; discriminate.
  - intros [(x & h & E & Hh & Ek)|(-> & h & Hh & Ek)].
    + exists x, h. rewrite nth_error_app1; auto. apply nth_error_Some. congruence.
    + exists e, h. rewrite nth_error_app2, Nat.sub_diag by auto. auto.
Qed.

Lemma build_row_ok s row s' : source_ok s -> build_row k py_int s row = Ok s' ->
  source_ok s' /\ exists e t, s_entries s' = s_entries s ++ [e] /\ parse_line k py_int (s_table s) row = Ok (e, t) /\ s_table s' = t.
Proof.
  intros [E SS L W] H. unfold build_row in H. apply bind_ok in H as ((e & t) & He & H). apply bind_ok in H as (keys & Hk & [= <-]).
  pose proof (parse_line_ok _ _ _ _ He) as O. cbn [s_entries s_keys s_table]. split; [|eauto 6].
  assert (Wk : forall ks, Forall (fun kw => StronglySorted lt (snd kw) /\ Forall (fun x => (x < length (s_entries s))%nat) (snd kw) /\ snd kw <> []) ks ->
     Forall (fun kw : bytes * list nat => StronglySorted lt (snd kw) /\ Forall (fun x => (x < length (s_entries s ++ [e]))%nat) (snd kw) /\ snd kw <> []) ks).
  { intros ks F. eapply Forall_impl; [|exact F]. intros kw (A & B & C). repeat split; auto.
    eapply Forall_impl; [|exact B]. cbn. intros. rewrite app_length. cbn. lia. }
  destruct (e_headword e) as [h|] eqn:Eh.
  - destruct O as (O1 & O2 & O3 & O4). destruct (O3 _ Eh) as (N & b & Hb & Lb).
    destruct h as [|c0 h0]; [congruence|]. unfold add_to_trie in Hk. rewrite Hb in Hk. cbn [bind] in Hk. injection Hk as <-.
    constructor; cbn [s_entries s_keys].
    + apply Forall_app. split; auto. constructor; [|constructor]. split; [auto|]. split; [auto|]. split; auto.
    + now apply add_key_sorted.
    + intros key w. rewrite add_key_listed, has_key_snoc, L. split.
      * intros [H|[-> ->]]; auto. right. split; auto. eauto.
      * intros [H|(-> & h & Hh & Ek)]; auto. right. rewrite Eh in Hh. injection Hh as <-. split; [congruence|auto].
    + rewrite app_length. cbn [length]. replace (length (s_entries s) + 1)%nat with (S (length (s_entries s))) by lia.
      eapply add_key_ascending; [|exact W]. lia.
  - injection Hk as <-. constructor; cbn [s_entries s_keys]; auto.
    + apply Forall_app. split; auto.
    + intros key w. rewrite has_key_snoc, L. split; auto. intros [H|(_ & h & Hh & _)]; [auto|congruence].
Qed.

Lemma build_lexicon_ok rows : forall s s', source_ok s -> build_lexicon k py_int s rows = Ok s' -> source_ok s'.
Proof.
  unfold build_lexicon. induction rows as [|r rows IH]; intros s s' O H; cbn [foldM] in H.
  - now injection H as <-.
  - apply bind_ok in H as (s1 & H1 & H). apply build_row_ok in H1 as [O1 _]; eauto.
Qed.
End source.
