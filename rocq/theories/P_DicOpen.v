(** Opening a built dictionary gives what was built. *)
From Coq Require Import List ZArith Lia Bool Arith.
From Verif Require Import Base Utf8 M_Builder M_Lattice M_Bytes P_Bytes M_DicReader M_DicBuilder P_DicFormat P_DicWrite.
Import ListNotations.
Open Scope Z_scope.

Lemma teqb_eq a b : teqb a b = true <-> a = b.
Proof. apply list_eqb_spec. intros; apply Z.eqb_eq. Qed.

(** ** Word infos *)
Definition or_surface (t surface : text) : text := match t with [] => surface | _ => t end.

(** What an entry says, its split columns standing for the ids [a], [b] and [c] *)
Definition entry_info (e : entry) (a b c : list Z) : word_info :=
  WordInfo (e_surface e) (e_head_length e) (e_pos e) (or_surface (e_norm e) (e_surface e)) (e_dic_id e) (e_surface e)
    (or_surface (e_reading e) (e_surface e)) a b c (e_syn e).

(** The strings fit the length code. *)
Definition fits (e : entry) : Prop :=
  Z.of_nat (length (units (e_surface e))) < 32768 /\ Z.of_nat (length (units (e_norm e))) < 32768
  /\ Z.of_nat (length (units (e_reading e))) < 32768 /\ Z.of_nat (e_head_length e) < 32768 /\ 0 <= e_pos e.

Lemma default_string s t : or_surface (if teqb t s then [] else t) s = or_surface t s.
Proof.
  destruct (teqb t s) eqn:E; auto. apply teqb_eq in E. subst. cbn. destruct s; auto.
Qed.

Lemma put_string_default t s b : put_string (if teqb t s then [] else t) = Ok b ->
  Z.of_nat (length (units t)) < 32768 -> exists u, reads buffer_to_string b u /\ or_surface u s = or_surface t s.
Proof.
  intros H L. exists (if teqb t s then [] else t). split; [|apply default_string].
  apply put_string_ok; auto. destruct (teqb t s); [|lia]. unfold units. cbn [map concat length]. lia.
Qed.

Section infos.
Variable k : kind.
Variable py_int : text -> res Z.
Variable is_digit : Z -> bool.
Variable entries : list entry.

Lemma put_word_info_reads t e b t' : put_word_info k py_int is_digit entries t e = Ok (b, t') -> fits e ->
  exists ia ib ic t1 t2 t3 t4 t5 t6,
    parse_splitinfo k py_int is_digit entries t1 (e_a e) = Ok (ia, t2)
    /\ parse_splitinfo k py_int is_digit entries t3 (e_b e) = Ok (ib, t4)
    /\ parse_splitinfo k py_int is_digit entries t5 (e_c e) = Ok (ic, t6)
    /\ t1 = t /\ t3 = t2 /\ t5 = t4 /\ t' = t6
    /\ reads (read_fields true) b (entry_info e ia ib ic).
Proof.
  intros H (F1 & F2 & F3 & F4 & F5). unfold put_word_info in H.
  apply bind_ok in H as (b1 & H1 & H). apply bind_ok in H as (b2 & H2 & H). apply bind_ok in H as (b3 & H3 & H).
  apply bind_ok in H as (b4 & H4 & H). apply bind_ok in H as (b5 & H5 & H). apply bind_ok in H as (b6 & H6 & H).
  apply bind_ok in H as ((ia & t2) & Ha & H). apply bind_ok in H as (b7 & H7 & H).
  apply bind_ok in H as ((ib & t4) & Hb & H). apply bind_ok in H as (b8 & H8 & H).
  apply bind_ok in H as ((ic & t6) & Hc & H). apply bind_ok in H as (b9 & H9 & H).
  apply bind_ok in H as (b10 & H10 & [= <- <-]).
  exists ia, ib, ic, t, t2, t2, t4, t4, t6. repeat (split; [auto; fail|]).
  apply put_string_ok in H1; [|lia]. apply put_length_ok in H2; [|lia].
  apply put_string_default in H4 as (u4 & R4 & D4); [|auto].
  apply put_string_default in H6 as (u6 & R6 & D6); [|auto].
  apply put_int_array_ok in H7, H8, H9, H10.
  pose proof (put_short_ok _ _ H3) as (L3 & _). pose proof (put_short_unsigned _ _ H3 F5) as U3.
  pose proof (put_int_ok _ _ H5) as (L5 & U5 & _).
  unfold read_fields.
  eapply reads_bind; [exact H1|]. eapply reads_bind; [exact H2|].
  eapply reads_bind; [rewrite <- L3; apply reads_read|]. eapply reads_bind; [exact R4|].
  eapply reads_bind; [rewrite <- L5; apply reads_read|]. eapply reads_bind; [exact R6|].
  eapply reads_bind; [exact H7|]. eapply reads_bind; [exact H8|]. eapply reads_bind; [exact H9|].
  eapply reads_then; [exact H10|].
  unfold entry_info. fold (or_surface u4 (e_surface e)). fold (or_surface u6 (e_surface e)).
  rewrite D4, D6, U3, U5, Nat2Z.id. apply reads_ret.
Qed.
End infos.

(** A file in which entry [i] of [entries] can be read at the offset kept at [off + 4 i] *)
Definition info_file (d : bytes) (off : nat) (entries : list entry) (infos : nat -> word_info -> Prop) : Prop :=
  forall i e, nth_error entries i = Some e ->
  exists o p b wi, put_int (Z.of_nat p) = Ok o /\ At d (off + 4 * i) o /\ At d p b /\ reads (read_fields true) b wi
    /\ infos i wi.

(** The chain of dictionary forms from entry [i] ends after [n] words: an entry without
    dictionary form, or that is its own. *)
Inductive chain_ends (entries : list entry) : nat -> nat -> Prop :=
| CE_end i e : nth_error entries i = Some e -> e_dic_id e < 0 \/ e_dic_id e = Z.of_nat i -> chain_ends entries 1 i
| CE_step n i e j : nth_error entries i = Some e -> e_dic_id e = Z.of_nat j -> j <> i ->
    chain_ends entries n j -> chain_ends entries (S n) i.

(** The surface of the word that an entry names as its dictionary form *)
Definition dictionary_form_of (entries : list entry) (e : entry) : text :=
  if e_dic_id e <? 0 then e_surface e
  else match nth_error entries (Z.to_nat (e_dic_id e)) with Some e' => e_surface e' | None => e_surface e end.

Lemma put_int_seek d p o b i : put_int (Z.of_nat p) = Ok o -> At d i o -> At d p b ->
  slice d i (i + 4) = o /\ unle o = Z.of_nat p /\ Z.of_nat p <= Z.of_nat (length d).
Proof.
  intros H A1 A2. pose proof (put_int_ok _ _ H) as (L & _). split.
  - rewrite <- L. now apply At_slice.
  - split; [apply put_int_unsigned; auto; lia|]. apply At_length in A2. lia.
Qed.

Lemma read_info_ok d off entries (good : nat -> word_info -> Prop) :
  info_file d off entries good ->
  (forall i e wi, nth_error entries i = Some e -> good i wi ->
     wi_dic_id wi = e_dic_id e /\ wi_surface wi = e_surface e) ->
  forall n i, chain_ends entries n i -> forall depth p, (n <= depth)%nat -> (p <= length d)%nat ->
  exists e wi, nth_error entries i = Some e /\ good i wi
    /\ prun d p (read_word_info off true depth (Z.of_nat i)) = (p, Ok (set_dictionary_form wi (dictionary_form_of entries e))).
Proof.
  intros HF Hg. induction 1 as [i e Hi He|n i e j Hi Hj Hne Hc IH]; intros depth p Hd Hp.
  - destruct depth as [|depth]; [lia|].
    destruct (HF _ _ Hi) as (o & q & b & wi & Ho & A1 & A2 & R & G).
    destruct (put_int_seek _ _ _ _ _ Ho A1 A2) as (S1 & S2 & S3).
    destruct (Hg _ _ _ Hi G) as [Gd Gs].
    exists e, wi. split; auto. split; auto.
    cbn [read_word_info]. rewrite prun_bind. cbn [ptell prun].
    rewrite prun_bind. unfold word_id_to_offset. rewrite prun_bind. cbn [psub prun]. rewrite Nat2Z.id, S1, S2.
    rewrite prun_bind. unfold pseek. rewrite prun_seek by lia. cbn [prun]. rewrite Nat2Z.id.
    rewrite prun_bind, (R _ _ A2). rewrite prun_bind, Gd.
    assert (C : (0 <=? e_dic_id e) && negb (e_dic_id e =? Z.of_nat i) = false).
    { destruct He as [He| ->]; [|rewrite Z.eqb_refl; apply andb_false_r].
      replace (0 <=? e_dic_id e) with false by (symmetry; apply Z.leb_gt; lia). reflexivity. }
    rewrite C. cbn [prun]. rewrite prun_bind, prun_seek by lia. cbn [prun]. rewrite Nat2Z.id. do 3 f_equal.
    rewrite Gs. unfold dictionary_form_of. destruct (e_dic_id e <? 0) eqn:E; auto.
    Zbool. destruct He as [He| ->]; [lia|]. rewrite Nat2Z.id, Hi. reflexivity.
  - destruct depth as [|depth]; [lia|].
    destruct (HF _ _ Hi) as (o & q & b & wi & Ho & A1 & A2 & R & G).
    destruct (put_int_seek _ _ _ _ _ Ho A1 A2) as (S1 & S2 & S3).
    destruct (Hg _ _ _ Hi G) as [Gd Gs].
    exists e, wi. split; auto. split; auto.
    cbn [read_word_info]. rewrite prun_bind. cbn [ptell prun].
    rewrite prun_bind. unfold word_id_to_offset. rewrite prun_bind. cbn [psub prun]. rewrite Nat2Z.id, S1, S2.
    rewrite prun_bind. unfold pseek. rewrite prun_seek by lia. cbn [prun]. rewrite Nat2Z.id.
    rewrite prun_bind, (R _ _ A2). rewrite prun_bind, Gd, Hj.
    replace (0 <=? Z.of_nat j) with true by (symmetry; apply Z.leb_le; lia).
    replace (Z.of_nat j =? Z.of_nat i) with false by (symmetry; apply Z.eqb_neq; lia). cbn [andb negb].
    rewrite prun_bind.
    assert (Hq : (q + length b <= length d)%nat) by (now apply At_length).
    destruct (IH depth (q + length b)%nat ltac:(lia) Hq) as (e' & wi' & Hj' & G' & ->).
    cbn [prun set_dictionary_form wi_surface]. destruct (Hg _ _ _ Hj' G') as [_ Gs'].
    rewrite prun_bind, prun_seek by lia. cbn [prun]. rewrite Nat2Z.id. do 3 f_equal.
    rewrite Gs'. unfold dictionary_form_of. rewrite Hj.
    replace (Z.of_nat j <? 0) with false by (symmetry; apply Z.ltb_ge; lia). rewrite Nat2Z.id, Hj'. reflexivity.
Qed.

(** ** The position is restored and does not matter (wordinfolist.py:28, 54) *)
Lemma read_info_pos off syn depth : forall d p wid p' wi, (p <= length d)%nat ->
  prun d p (read_word_info off syn depth wid) = (p', Ok wi) -> p' = p.
Proof.
  destruct depth as [|depth]; intros d p wid p' wi Hp H; [discriminate|].
  cbn [read_word_info] in H. rewrite prun_bind in H. cbn [ptell prun] in H.
  repeat match type of H with
  | prun _ _ (pbind _ _) = _ =>
      rewrite prun_bind in H;
      match type of H with context [match ?x with (_, _) => _ end] => destruct x as [? [?|?]] eqn:?; [|discriminate] end
  end.
  cbn [prun] in H. inversion H; subst.
  match goal with X : prun _ _ (pseek (Z.of_nat p)) = _ |- _ => unfold pseek in X; rewrite prun_seek in X by lia; cbn [prun] in X; inversion X end.
  now rewrite Nat2Z.id.
Qed.

(** The same result from any position *)
Lemma read_info_anywhere off syn depth wid d p q : (p <= length d)%nat -> (q <= length d)%nat ->
  snd (prun d p (read_word_info off syn depth wid)) = snd (prun d q (read_word_info off syn depth wid)).
Proof.
  intros Hp Hq. destruct depth as [|depth]; [reflexivity|].
  cbn [read_word_info]. rewrite !prun_bind. cbn [ptell prun].
  rewrite !(prun_bind d (word_id_to_offset off wid)). unfold word_id_to_offset. rewrite !prun_bind. cbn [psub prun].
  set (i := unle _). rewrite !(prun_bind d (pseek i)). unfold pseek. cbn [prun].
  destruct ((0 <=? i) && (i <=? Z.of_nat (length d))); [|reflexivity].
  cbn [prun]. rewrite !(prun_bind d (read_fields syn)).
  destruct (prun d (Z.to_nat i) (read_fields syn)) as [r [w|e]]; [|reflexivity].
  rewrite !prun_bind.
  match goal with |- context [prun d r ?c] => destruct (prun d r c) as [r' [dic|e]] end; [|reflexivity].
  rewrite !prun_bind. unfold pseek. rewrite !prun_seek by lia. reflexivity.
Qed.
