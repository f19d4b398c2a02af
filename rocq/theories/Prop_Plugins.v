(** Properties C11 and C12: the input-text plugins. *)
From Coq Require Import List ZArith Lia Bool Arith.
From Verif Require Import Base Utf8 M_Builder S_Text P_Builder M_InputPlugins S_Plugins P_Plugins Prop_Text.
Import ListNotations.

Lemma rewritten_edited t bd : rewritten t bd -> edited t bd.
Proof. induction 1; econstructor; eauto. Qed.

(** ** C11 *)
(** [lines]: the lines of rewrite.def split into columns.  Whatever the text has
    become so far, the plugin never raises, the builder stays well-formed and its
    new text is THE normalisation of the old one. *)
Theorem C11_default_rewrite (lower : Z -> text) (nfkc : text -> text)
    (lines : list (list text)) (cfg : default_cfg) (t0 : text) (bd : builder) :
  (forall c, lower c <> []) -> (forall t, t <> [] -> nfkc t <> []) ->
  read_rewrite_lists lines = Ok cfg -> edited t0 bd ->
  let entries := d_map cfg in
  let out c := if in_set (lower c) (d_ignore cfg) then lower c else nfkc (lower c) in
  (forall k v, In (k, v) entries <-> In [k; v] lines) /\
  (forall x, In x (d_ignore cfg) <-> In [x] lines) /\
  exists bd', default_rewrite lower nfkc cfg bd = Ok bd' /\ edited t0 bd' /\
    normalised entries out (b_mod bd) (b_mod bd') /\
    forall o, normalised entries out (b_mod bd) o -> o = b_mod bd'.
Proof.
  intros Hl Hn Hr He entries out.
  pose proof (read_rewrite_lists_ok _ _ Hr) as Hok.
  destruct (read_rewrite_lists_entries _ _ Hr) as (A & B).
  split; [exact A|]. split; [exact B|].
  destruct (default_rewrite_spec lower nfkc Hl Hn cfg t0 bd Hok (edited_rewritten _ _ He))
    as (bd' & E & Hrw & Hno).
  exists bd'. split; [exact E|]. split; [now apply rewritten_edited|]. split; [exact Hno|].
  intros o Ho. eapply normalised_functional; [|exact Ho|exact Hno].
  intros k v v' H1 H2. destruct Hok as (Hnd & _).
  apply (assoc_text_complete _ _ _ Hnd) in H1, H2. congruence.
Qed.
Print Assumptions C11_default_rewrite.

(* rewrite.def fragment: ignore "Ⅰ"(0x2170 lower); replace "ab" -> "X", "abc" -> "YZW" *)
Example C11_nonvacuous :
  let lower c := (if c =? 65 then [97] else [c])%Z in
  let nfkc t := match t with [c] => (if c =? 0xFF11 then [49] else if c =? 0x3326 then [0x30C9; 0x30EB] else [c])%Z | _ => t end in
  exists cfg bd', read_rewrite_lists [[[0x2170]]; [[97; 98]; [120]]; [[97; 98; 99]; [120; 121; 122; 119]]]%Z = Ok cfg /\
    default_rewrite lower nfkc cfg (builder_init [0x3326; 97; 98; 100; 65; 98; 97; 98; 99; 0xFF11]%Z) = Ok bd' /\
    b_mod bd' = [0x30C9; 0x30EB; 120; 100; 97; 98; 120; 121; 122; 119; 49]%Z /\
    b_m2o bd' = [0; 1; 1; 3; 4; 5; 6; 9; 9; 9; 9; 10]%nat.
Proof.
  intros lower nfkc.
  set (cfg := match read_rewrite_lists [[[0x2170]]; [[97; 98]; [120]]; [[97; 98; 99]; [120; 121; 122; 119]]]%Z
              with Ok c => c | Err _ => DefaultCfg [] [] [] end). vm_compute in cfg.
  set (bd' := match default_rewrite lower nfkc cfg (builder_init [0x3326; 97; 98; 100; 65; 98; 97; 98; 99; 0xFF11]%Z)
              with Ok b => b | Err _ => builder_init [] end). vm_compute in bd'.
  exists cfg, bd'. repeat split; vm_compute; reflexivity.
Qed.

(** ** C12 *)
Theorem C12_prolonged_sound_mark_partial (cfg : psm_cfg) (sym : Z) (t0 : text) (bd : builder) :
  psm_symbol cfg = [sym] -> edited t0 bd ->
  let mark c := In c (psm_set cfg) in
  exists bd', psm_rewrite cfg bd = Ok bd' /\ edited t0 bd' /\
    collapsed mark (psm_symbol cfg) (b_mod bd) (b_mod bd') /\
    forall o, collapsed mark (psm_symbol cfg) (b_mod bd) o -> o = b_mod bd'.
Proof.
  intros Hs He mark.
  destruct (psm_rewrite_spec cfg sym Hs t0 bd (edited_rewritten _ _ He)) as (bd' & E & Hrw & Hc).
  exists bd'. split; [exact E|]. split; [now apply rewritten_edited|].
  rewrite Hs. split; [exact Hc|].
  intros o Ho. eapply collapsed_functional; [|exact Ho|exact Hc].
  intros c. unfold mark. destruct (in_dec Z.eq_dec c (psm_set cfg)); auto.
Qed.
Print Assumptions C12_prolonged_sound_mark_partial.

Example C12_nonvacuous :
  let cfg := {| psm_set := [0x30FC; 0x301C]%Z; psm_symbol := [0x30FC]%Z |} in
  exists bd', psm_rewrite cfg (builder_init [0x30B4; 0x30FC; 0x301C; 0x30FC; 0x30EB; 0x301C; 0x30EB; 0x30FC; 0x30FC]%Z) = Ok bd' /\
    b_mod bd' = [0x30B4; 0x30FC; 0x30EB; 0x301C; 0x30EB; 0x30FC]%Z /\
    b_m2o bd' = [0; 1; 4; 5; 6; 7; 9]%nat.
Proof. eexists. repeat split. Qed.

(** With a two-character replacement symbol the offsets drift: in "a--b--c" with
    mark '-' and symbol "<>" the second replacement hits the wrong characters. *)
Theorem C12_long_symbol_refuted :
  exists (cfg : psm_cfg) (t : text) (bd' : builder),
    psm_rewrite cfg (builder_init t) = Ok bd' /\
    ~ collapsed (fun c => In c (psm_set cfg)) (psm_symbol cfg) t (b_mod bd').
Proof.
  exists {| psm_set := [45]%Z; psm_symbol := [60; 62]%Z |}, [97; 45; 45; 98; 45; 45; 99]%Z.
  eexists. split; [vm_compute; reflexivity|]. cbn [b_mod psm_set psm_symbol].
  intros H.
  assert (H2 : collapsed (fun c => In c [45]%Z) [60; 62]%Z [97; 45; 45; 98; 45; 45; 99]%Z
                 [97; 60; 62; 98; 60; 62; 99]%Z).
  { apply col_other; [simpl; lia|].
    apply (col_run _ [60; 62]%Z [45; 45]%Z [98; 45; 45; 99]%Z [98; 60; 62; 99]%Z); try discriminate.
    - repeat constructor.
    - intros c t' [= <- <-]. simpl. lia.
    - apply col_other; [simpl; lia|].
      apply (col_run _ [60; 62]%Z [45; 45]%Z [99]%Z [99]%Z); try discriminate.
      + repeat constructor.
      + intros c t' [= <- <-]. simpl. lia.
      + apply col_other; [simpl; lia|]. constructor. }
  assert (D : forall c, In c [45]%Z \/ ~ In c [45]%Z)
    by (intros c; destruct (in_dec Z.eq_dec c [45]%Z); auto).
  pose proof (collapsed_functional _ _ _ _ _ D H H2) as E. discriminate E.
Qed.
Print Assumptions C12_long_symbol_refuted.

(** With an empty symbol a run at the end of the text empties its span: the
    morphemes no longer cover the original (cf. C03). *)
Theorem C12_empty_symbol_refuted :
  exists (cfg : psm_cfg) (t : text) (bd' : builder),
    psm_symbol cfg = [] /\ psm_rewrite cfg (builder_init t) = Ok bd' /\
    ~ position_map (b_m2o bd') (length (b_mod bd')) (length t).
Proof.
  exists {| psm_set := [45]%Z; psm_symbol := [] |}, [97; 45; 45]%Z.
  eexists. split; [reflexivity|]. split; [vm_compute; reflexivity|].
  intros (_ & _ & H & _). vm_compute in H. discriminate.
Qed.
Print Assumptions C12_empty_symbol_refuted.
