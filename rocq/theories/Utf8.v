(** UTF-8: the encoder behind [str.encode('utf-8')] and the decoder behind
    [bytes.decode('utf-8')] (CPython's, both strict).  External to /repo; used by
    utf8inputtextbuilder.py:63, dictionaryheader.py, dictionarybuilder.py. *)
From Coq Require Import List ZArith Lia Bool.
From Verif Require Import Base.
Import ListNotations.
Open Scope Z_scope.

Definition is_surrogate (c : Z) : bool := (0xD800 <=? c) && (c <=? 0xDFFF).
(** A Unicode scalar value: what UTF-8 can encode. *)
Definition is_scalar (c : Z) : bool := (0 <=? c) && (c <=? 0x10FFFF) && negb (is_surrogate c).

Definition encode_cp (c : Z) : bytes :=
  if c <=? 0x7F then [c]
  else if c <=? 0x7FF then [0xC0 + c / 64; 0x80 + c mod 64]
  else if c <=? 0xFFFF then [0xE0 + c / 4096; 0x80 + (c / 64) mod 64; 0x80 + c mod 64]
  else [0xF0 + c / 262144; 0x80 + (c / 4096) mod 64; 0x80 + (c / 64) mod 64; 0x80 + c mod 64].

Fixpoint encode (t : text) : res bytes :=
  match t with
  | [] => Ok []
  | c :: r => if is_scalar c then b <- encode r ;; Ok (encode_cp c ++ b) else Err EUnicode
  end.

(** [b] is a continuation byte. *)
Definition is_cont (b : Z) : bool := (0x80 <=? b) && (b <=? 0xBF).

(** Decode one character from the front: strict (no overlong forms, no
    surrogates, nothing above 0x10FFFF). *)
Definition decode_cp (b : bytes) : res (Z * bytes) :=
  match b with
  | [] => Err EUnicode
  | b0 :: r =>
    if (0 <=? b0) && (b0 <=? 0x7F) then Ok (b0, r)
    else if (0xC2 <=? b0) && (b0 <=? 0xDF) then
      match r with
      | b1 :: r' => if is_cont b1 then Ok ((b0 - 0xC0) * 64 + (b1 - 0x80), r') else Err EUnicode
      | _ => Err EUnicode
      end
    else if (0xE0 <=? b0) && (b0 <=? 0xEF) then
      match r with
      | b1 :: b2 :: r' =>
        if is_cont b1 && is_cont b2 then
          let c := (b0 - 0xE0) * 4096 + (b1 - 0x80) * 64 + (b2 - 0x80) in
          if (0x800 <=? c) && negb (is_surrogate c) then Ok (c, r') else Err EUnicode
        else Err EUnicode
      | _ => Err EUnicode
      end
    else if (0xF0 <=? b0) && (b0 <=? 0xF4) then
      match r with
      | b1 :: b2 :: b3 :: r' =>
        if is_cont b1 && is_cont b2 && is_cont b3 then
          let c := (b0 - 0xF0) * 262144 + (b1 - 0x80) * 4096 + (b2 - 0x80) * 64 + (b3 - 0x80) in
          if (0x10000 <=? c) && (c <=? 0x10FFFF) then Ok (c, r') else Err EUnicode
        else Err EUnicode
      | _ => Err EUnicode
      end
    else Err EUnicode
  end.

(** Fuel: the number of bytes; every character consumes at least one. *)
Fixpoint decode_fuel (n : nat) (b : bytes) : res text :=
  match b, n with
  | [], _ => Ok []
  | _, O => Err EFuel
  | _, S m => '(c, r) <- decode_cp b ;; t <- decode_fuel m r ;; Ok (c :: t)
  end.
Definition decode (b : bytes) : res text := decode_fuel (length b) b.

Ltac Zbool :=
  repeat match goal with
  | H : andb _ _ = true |- _ => apply andb_true_iff in H; destruct H
  | H : negb _ = true |- _ => apply negb_true_iff in H
  | H : (_ <=? _) = true |- _ => apply Z.leb_le in H
  | H : (_ <=? _) = false |- _ => apply Z.leb_gt in H
  | H : (_ <? _) = true |- _ => apply Z.ltb_lt in H
  | H : (_ <? _) = false |- _ => apply Z.ltb_ge in H
  | H : (_ =? _) = true |- _ => apply Z.eqb_eq in H
  | H : (_ =? _) = false |- _ => apply Z.eqb_neq in H
  end.

Ltac leb_t x y := replace (x <=? y) with true by (symmetry; apply Z.leb_le; lia).
Ltac leb_f x y := replace (x <=? y) with false by (symmetry; apply Z.leb_gt; lia).

Lemma is_scalar_range c : is_scalar c = true -> 0 <= c <= 0x10FFFF.
Proof. unfold is_scalar. intros H. Zbool. lia. Qed.

(** Euclidean facts about the digits in base 64, in a form [lia] can use. *)
Ltac dm c k :=
  let q := fresh "q" in let r := fresh "r" in
  pose proof (Z.div_mod c k ltac:(lia));
  pose proof (Z.mod_pos_bound c k ltac:(lia)).

Lemma decode_encode_cp c r : is_scalar c = true -> decode_cp (encode_cp c ++ r) = Ok (c, r).
Proof.
  intros Hs. pose proof (is_scalar_range _ Hs) as Hr.
  unfold encode_cp.
  destruct (c <=? 0x7F) eqn:E1; Zbool.
  { cbn [app decode_cp]. leb_t 0 c. leb_t c 0x7F. reflexivity. }
  destruct (c <=? 0x7FF) eqn:E2; Zbool.
  { dm c 64. cbn [app decode_cp].
    leb_f (192 + c / 64) 127. rewrite andb_false_r.
    leb_t 0xC2 (192 + c / 64). leb_t (192 + c / 64) 0xDF. cbn [andb].
    unfold is_cont. leb_t 128 (128 + c mod 64). leb_t (128 + c mod 64) 0xBF. cbn [andb].
    do 2 f_equal. lia. }
  destruct (c <=? 0xFFFF) eqn:E3; Zbool.
  { dm c 64. dm (c / 64) 64. 
    assert (Hd : c / 4096 = c / 64 / 64) by (rewrite Z.div_div by lia; reflexivity).
    rewrite Hd. cbn [app decode_cp].
    set (x := c / 64 / 64) in *. set (y := (c / 64) mod 64) in *. set (z := c mod 64) in *.
    leb_f (224 + x) 127. rewrite andb_false_r.
    leb_f (224 + x) 0xDF. rewrite andb_false_r.
    leb_t 0xE0 (224 + x). leb_t (224 + x) 0xEF. cbn [andb].
    unfold is_cont. leb_t 128 (128 + y). leb_t (128 + y) 0xBF.
    leb_t 128 (128 + z). leb_t (128 + z) 0xBF. cbn [andb].
    replace ((224 + x - 224) * 4096 + (128 + y - 128) * 64 + (128 + z - 128)) with c by lia.
    unfold is_scalar in Hs. apply andb_true_iff in Hs as [_ Hs].
    rewrite Hs. leb_t 0x800 c. reflexivity. }
  { dm c 64. dm (c / 64) 64. dm (c / 64 / 64) 64.
    assert (Hd : c / 4096 = c / 64 / 64) by (rewrite Z.div_div by lia; reflexivity).
    assert (Hd2 : c / 262144 = c / 64 / 64 / 64) by (rewrite !Z.div_div by lia; reflexivity).
    rewrite Hd, Hd2. cbn [app decode_cp].
    set (w := c / 64 / 64 / 64) in *. set (x := (c / 64 / 64) mod 64) in *.
    set (y := (c / 64) mod 64) in *. set (z := c mod 64) in *.
    leb_f (240 + w) 127. rewrite andb_false_r.
    leb_f (240 + w) 0xDF. rewrite andb_false_r.
    leb_f (240 + w) 0xEF. rewrite andb_false_r.
    leb_t 0xF0 (240 + w). leb_t (240 + w) 0xF4. cbn [andb].
    unfold is_cont. leb_t 128 (128 + x). leb_t (128 + x) 0xBF. leb_t 128 (128 + y). leb_t (128 + y) 0xBF.
    leb_t 128 (128 + z). leb_t (128 + z) 0xBF. cbn [andb].
    replace ((240 + w - 240) * 262144 + (128 + x - 128) * 4096 + (128 + y - 128) * 64 + (128 + z - 128)) with c by lia.
    leb_t 0x10000 c. leb_t c 0x10FFFF. reflexivity. }
Qed.

Lemma encode_cp_nonempty c : (1 <= length (encode_cp c))%nat.
Proof. unfold encode_cp. repeat destruct (_ <=? _); simpl; lia. Qed.

Lemma decode_fuel_encode t b n :
  encode t = Ok b -> (length b <= n)%nat -> decode_fuel n b = Ok t.
Proof.
  revert b n. induction t as [|c t IH]; simpl; intros b n H Hn.
  - inversion H. destruct n; reflexivity.
  - destruct (is_scalar c) eqn:Hs; [|discriminate].
    apply bind_ok in H as (b' & Hb & [= <-]).
    pose proof (encode_cp_nonempty c).
    rewrite app_length in Hn.
    destruct n as [|n]; [lia|].
    pose proof (decode_encode_cp c b' Hs) as D.
    destruct (encode_cp c ++ b') as [|x l] eqn:E.
    { apply app_eq_nil in E as [E _]. rewrite E in H. simpl in H. lia. }
    cbn [decode_fuel]. rewrite D. cbn [bind]. rewrite (IH b' n); auto. lia.
Qed.

Lemma decode_encode t b : encode t = Ok b -> decode b = Ok t.
Proof. intros H. unfold decode. eapply decode_fuel_encode; eauto. Qed.

Lemma encode_inj t1 t2 b : encode t1 = Ok b -> encode t2 = Ok b -> t1 = t2.
Proof. intros H1 H2. apply decode_encode in H1, H2. congruence. Qed.

Lemma encode_app t1 t2 b1 b2 :
  encode t1 = Ok b1 -> encode t2 = Ok b2 -> encode (t1 ++ t2) = Ok (b1 ++ b2).
Proof.
  revert b1. induction t1; simpl; intros b1 H1 H2.
  - inversion H1. auto.
  - destruct (is_scalar a); [|discriminate].
    apply bind_ok in H1 as (b' & Hb & [= <-]).
    rewrite (IHt1 b') by auto. simpl. now rewrite app_assoc.
Qed.

Lemma encode_app_inv t1 t2 b :
  encode (t1 ++ t2) = Ok b ->
  exists b1 b2, encode t1 = Ok b1 /\ encode t2 = Ok b2 /\ b = b1 ++ b2.
Proof.
  revert b. induction t1; simpl; intros b H.
  - exists [], b. auto.
  - destruct (is_scalar a); [|discriminate].
    apply bind_ok in H as (b' & Hb & [= <-]).
    destruct (IHt1 _ Hb) as (b1 & b2 & H1 & H2 & ->).
    exists (encode_cp a ++ b1), b2. rewrite H1. simpl. now rewrite app_assoc.
Qed.

Lemma encode_scalar t b : encode t = Ok b -> Forall (fun c => is_scalar c = true) t.
Proof.
  revert b. induction t; simpl; intros b H; constructor.
  - destruct (is_scalar a); congruence.
  - destruct (is_scalar a); [|discriminate]. apply bind_ok in H as (b' & Hb & _). eauto.
Qed.

Lemma encode_total t : Forall (fun c => is_scalar c = true) t -> exists b, encode t = Ok b.
Proof.
  induction 1; simpl; eauto. rewrite H. destruct IHForall as [b ->]. simpl. eauto.
Qed.

(** First byte of a character is never a continuation byte; the others are. *)
Lemma encode_cp_shape c : is_scalar c = true ->
  exists b0 r, encode_cp c = b0 :: r /\ is_cont b0 = false /\ Forall (fun b => is_cont b = true) r
   /\ 0 <= b0 < 256.
Proof.
  intros Hs. pose proof (is_scalar_range _ Hs) as Hr. unfold encode_cp.
  destruct (c <=? 0x7F) eqn:E1; Zbool.
  { exists c, []. repeat split; auto; try lia. unfold is_cont. leb_f 128 c. reflexivity. }
  assert (Hc : forall x, is_cont (128 + x mod 64) = true).
  { intros x. pose proof (Z.mod_pos_bound x 64 ltac:(lia)). unfold is_cont.
    leb_t 128 (128 + x mod 64). leb_t (128 + x mod 64) 0xBF. reflexivity. }
  destruct (c <=? 0x7FF) eqn:E2; Zbool.
  { dm c 64. eexists _, _. split; [reflexivity|]. repeat split; try lia.
    - unfold is_cont. leb_f (192 + c / 64) 0xBF. apply andb_false_r.
    - repeat constructor; auto. }
  destruct (c <=? 0xFFFF) eqn:E3; Zbool.
  { dm c 4096. eexists _, _. split; [reflexivity|]. repeat split; try lia.
    - unfold is_cont. leb_f (224 + c / 4096) 0xBF. apply andb_false_r.
    - repeat constructor; auto. }
  { dm c 262144. eexists _, _. split; [reflexivity|]. repeat split; try lia.
    - unfold is_cont. leb_f (240 + c / 262144) 0xBF. apply andb_false_r.
    - repeat constructor; auto. }
Qed.
