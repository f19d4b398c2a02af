(** C26, C27: candidates of the MeCab-style OOV provider. *)
From Coq Require Import List ZArith Lia Bool Arith.
From Verif Require Import Base Utf8 M_Builder M_InputText M_Lattice M_Oov M_Tokenizer S_Text S_Lattice
  P_Builder P_InputText P_Accessors P_Oov Prop_Text.
Import ListNotations.
Open Scope nat_scope.

Lemma edited_built category t bd it : (forall c, category c <> []) -> edited t bd -> build category bd = Ok it ->
  built (b_mod bd) t (b_m2o bd) (map category (b_mod bd)) it.
Proof.
  intros Hc He E.
  assert (Hs : scalar_text (b_mod bd)).
  { unfold build in E. apply bind_ok in E as (bs & Ebs & _). eapply encode_scalar; eauto. }
  destruct (build_spec category t bd (edited_wf _ _ He) Hs (fun c _ => Hc c)) as (it' & E' & B).
  rewrite E in E'. injection E' as <-. exact B.
Qed.

(** Character [k] lies in the run of characters [s, e). *)
Definition in_run (category : Z -> list cat) (T : text) (k e : nat) : Prop :=
  exists s, run_start (map category T) s /\ is_run (map category T) s e /\ s <= k < e.

(** [w] is an out-of-vocabulary word for the characters [k, j) with the parameters of entry [o]. *)
Definition oov_word (T : text) (k j : nat) (o : oov_entry) (w : wnode) : Prop :=
  w_begin w = char_start T k /\ w_end w = char_start T j /\ w_oov w = true /\
  w_left w = oe_left o /\ w_right w = oe_right o /\ w_cost w = oe_cost o /\
  exists wi, w_extra w = Some wi /\ wi_surface wi = slice T k j /\ wi_norm wi = slice T k j /\ wi_dic wi = slice T k j /\
    wi_length wi = char_start T j - char_start T k /\ wi_pos wi = oe_pos o /\ wi_reading wi = [] /\ wi_dic_id wi = (-1)%Z /\
    wi_a wi = [] /\ wi_b wi = [] /\ wi_struct wi = [] /\ wi_syn wi = [].

Lemma mecab_word_oov T k j o : oov_word T k j o (mecab_word (t := T) k j o).
Proof. unfold oov_word, mecab_word, span_word. cbn. repeat split. eexists. repeat split. Qed.

(** ** C26 *)
Theorem C26_mecab_sound category t bd it cfg k has :
  (forall c, category c <> []) -> edited t bd -> build category bd = Ok it ->
  let T := b_mod bd in
  k < length T ->
  exists ns, get_oov (MeCab cfg) it (char_start T k) has = Ok ns /\
    forall w, In w ns ->
      exists j e ch c info oovs o,
        k < j <= e /\ in_run category T k e /\
        nth_error T k = Some ch /\ In c (category ch) /\
        mc_info cfg c = Some info /\ mc_oovs cfg c = Some oovs /\ In o oovs /\
        (has = true -> ci_invoke info = true) /\
        (j = e /\ ci_group info = true \/ (Z.of_nat (j - k) <= ci_length info)%Z) /\
        oov_word T k j o w.
Proof.
  intros Hc He E T Hk. pose proof (edited_built _ _ _ _ Hc He E) as B. fold T in B.
  destruct (mecab_spec B cfg k has Hk) as (ns & s & e & c0 & Eg & Hs & Hr & Hse & Hel & Ec0 & H).
  exists ns. split; [exact Eg|]. intros w Hw. apply H in Hw as (c & Hin & Hw).
  rewrite nth_error_map in Ec0. destruct (nth_error T k) as [ch|] eqn:Ech; [|discriminate]. injection Ec0 as <-.
  destruct Hw as (info & oovs & o' & E1 & E2 & Hinv & Hin' & Hcase).
  destruct Hcase as [(Hg & Heq)|(i & Hi1 & Hi2 & Hi3 & Heq)].
  - exists e, e, ch, c, info, oovs, o'.
    split; [lia|]. split; [exists s; auto|]. split; [auto|]. split; [auto|]. split; [auto|]. split; [auto|]. split; [auto|].
    split; [intros Hh; destruct Hinv; congruence|]. split; [auto|]. rewrite Heq. apply mecab_word_oov.
  - exists (min (k + i) (length T)), e, ch, c, info, oovs, o'.
    assert (Hje : min (k + i) (length T) <= e).
    { apply (char_start_le_inv T); [lia|].
      pose proof (char_start_mono T k (min (k + i) (length T)) ltac:(lia)).
      pose proof (char_start_mono T k e ltac:(lia)). destruct (ci_group info); lia. }
    split; [lia|]. split; [exists s; auto|]. split; [auto|]. split; [auto|]. split; [auto|]. split; [auto|]. split; [auto|].
    split; [intros Hh; destruct Hinv; congruence|]. split; [lia|]. rewrite Heq. apply mecab_word_oov.
Qed.
Print Assumptions C26_mecab_sound.

(** ** C27 *)
(** Every candidate of the documented lengths is offered when the category is not
    grouped, or has a single OOV entry, or there is room for as many bytes as there
    are entries. *)
Theorem C27_lengths_offered_partial category t bd it cfg k has :
  (forall c, category c <> []) -> edited t bd -> build category bd = Ok it ->
  let T := b_mod bd in
  k < length T ->
  exists ns e, get_oov (MeCab cfg) it (char_start T k) has = Ok ns /\ in_run category T k e /\
    forall ch c info oovs o j,
      nth_error T k = Some ch -> In c (category ch) -> mc_info cfg c = Some info -> mc_oovs cfg c = Some oovs ->
      In o oovs -> (has = true -> ci_invoke info = true) ->
      k < j <= e ->
      (j = e /\ ci_group info = true) \/
      ((Z.of_nat (j - k) <= ci_length info)%Z /\
        (ci_group info = false \/ length oovs = 1 \/ char_start T j + length oovs <= char_start T e)) ->
      exists w, In w ns /\ oov_word T k j o w.
Proof.
  intros Hc He E T Hk. pose proof (edited_built _ _ _ _ Hc He E) as B. fold T in B.
  destruct (mecab_spec B cfg k has Hk) as (ns & s & e & c0 & Eg & Hs & Hr & Hse & Hel & Ec0 & H).
  exists ns, e. split; [exact Eg|]. split; [exists s; auto|].
  intros ch c info oovs o j Ech Hin E1 E2 Ho Hinv Hj Hcase.
  rewrite nth_error_map, Ech in Ec0. injection Ec0 as <-.
  exists (mecab_word (t := T) k j o). split; [|apply mecab_word_oov].
  apply H. exists c. split; auto. exists info, oovs, o. split; auto. split; auto.
  split; [destruct has; auto|]. split; auto.
  destruct (Nat.eq_dec j e) as [->|Hne].
  - destruct (ci_group info) eqn:Eg'; [left; auto|].
    destruct Hcase as [(_ & [=])|(Hl & _)].
    right. exists (e - k). split; [lia|]. split; [lia|]. replace (min (k + (e - k)) (length T)) with e by lia.
    split; [lia|reflexivity].
  - destruct Hcase as [(-> & _)|(Hl & Hroom)]; [congruence|].
    right. exists (j - k). split; [lia|]. split; [lia|]. replace (min (k + (j - k)) (length T)) with j by lia.
    split; [|reflexivity].
    pose proof (char_start_lt T j e ltac:(lia) ltac:(lia)). pose proof (char_start_lt T k j ltac:(lia) ltac:(lia)).
    destruct (ci_group info); [|lia]. destruct Hroom as [[=]|[Hr1|Hr1]]; lia.
Qed.
Print Assumptions C27_lengths_offered_partial.

(** A grouped category with LENGTH 2 and two OOV entries: on "ab" no one-character
    candidate is offered. *)
Definition two_entries : mecab_cfg :=
  MecabCfg (fun c => match c with ALPHA => Some (CatInfo true true 2) | _ => None end)
           (fun c => match c with ALPHA => Some [OovEntry 1 1 100 1; OovEntry 2 2 200 2] | _ => None end).
Theorem C27_lengths_refuted :
  exists it ns, build (fun _ => [ALPHA]) (builder_init [97; 98]%Z) = Ok it /\
    get_oov (MeCab two_entries) it 0 false = Ok ns /\
    in_run (fun _ => [ALPHA]) [97; 98]%Z 0 2 /\
    length ns = 2 /\ forall w, In w ns -> w_end w = 2.
Proof.
  eexists _, _. split; [vm_compute; reflexivity|]. split; [vm_compute; reflexivity|]. split.
  - exists 0. split; [constructor|]. split; [|lia]. split; [cbn; lia|]. split; [|now left].
    exists ALPHA. intros [|[|j]] Hj; [..|lia]; exists [ALPHA]; split; cbn; auto.
  - split; [reflexivity|]. intros w [<-|[<-|[]]]; reflexivity.
Qed.
Print Assumptions C27_lengths_refuted.

(** Three candidates: the group and the lengths 1 and 2. *)
Definition one_entry : mecab_cfg :=
  MecabCfg (fun c => match c with KATAKANA => Some (CatInfo false true 2) | _ => None end)
           (fun c => match c with KATAKANA => Some [OovEntry 1 1 100 1] | _ => None end).
Example C26_C27_nonvacuous :
  exists it ns, build (fun _ => [KATAKANA]) (builder_init [0x30A2; 0x30A4; 0x30A6]%Z) = Ok it /\
    get_oov (MeCab one_entry) it 0 false = Ok ns /\ map w_end ns = [9; 3; 6] /\
    get_oov (MeCab one_entry) it 0 true = Ok [].
Proof. eexists _, _. repeat split; vm_compute; reflexivity. Qed.
