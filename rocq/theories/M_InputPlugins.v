(** Model of sudachipy/plugin/input_text/default_input_text_plugin.py and
    prolongedsoundmark.py. *)
From Coq Require Import List ZArith Lia Bool Arith.
From Verif Require Import Base Utf8 M_Builder.
Import ListNotations.
Open Scope Z_scope.

Definition text_eqb : text -> text -> bool := list_eqb Z.eqb.

(** default_input_text_plugin.py:24-27.  The two dicts and the set are
    association lists / lists; [d_keylen] is [key_lengths]. *)
Record default_cfg := DefaultCfg {
  d_ignore : list text;
  d_keylen : list (Z * nat);
  d_map : list (text * text);
}.

Fixpoint assoc_text (k : text) (m : list (text * text)) : option text :=
  match m with
  | [] => None
  | (k', v) :: r => if text_eqb k k' then Some v else assoc_text k r
  end.

(** [self.key_lengths.get(c, 0)]; the newest binding is in front. *)
Fixpoint keylen (c : Z) (m : list (Z * nat)) : nat :=
  match m with
  | [] => 0%nat
  | (c', n) :: r => if c =? c' then n else keylen c r
  end.

(** default_input_text_plugin.py:84-100, one non-comment line of rewrite.def
    already split into columns ([line.split()] never yields empty columns; a
    line without columns is skipped before, lines 81-83). *)
Definition read_line (cfg : default_cfg) (cols : list text) : res default_cfg :=
  match cols with
  | [key] =>
    if (length key =? 1)%nat
    then Ok {| d_ignore := key :: d_ignore cfg; d_keylen := d_keylen cfg; d_map := d_map cfg |}
    else Err ERuntime
  | [k; v] =>
    match assoc_text k (d_map cfg) with
    | Some _ => Err ERuntime
    | None =>
      match k with
      | [] => Err EIndex
      | c :: _ =>
        let kl := if (keylen c (d_keylen cfg) <? length k)%nat
                  then (c, length k) :: d_keylen cfg else d_keylen cfg in
        Ok {| d_ignore := d_ignore cfg; d_keylen := kl; d_map := (k, v) :: d_map cfg |}
      end
    end
  | _ => Err ERuntime
  end.

(** default_input_text_plugin.py:78-100 *)
Definition read_rewrite_lists (lines : list (list text)) : res default_cfg :=
  foldM read_line {| d_ignore := []; d_keylen := []; d_map := [] |} lines.

(** default_input_text_plugin.py:52-59: longest key first; [rest] is [text[i:]].
    [if replace:] rejects a missing and an empty replacement alike. *)
Fixpoint find_key (m : list (text * text)) (rest : text) (l : nat) : option (nat * text) :=
  match l with
  | O => None
  | S l' =>
    match assoc_text (firstn l rest) m with
    | Some (c :: v) => Some (l, c :: v)
    | _ => find_key m rest l'
    end
  end.

Definition in_set (x : text) (s : list text) : bool := existsb (text_eqb x) s.

Section default.
(** [str.lower] of one character and [unicodedata.normalize("NFKC", _)]. *)
Variable lower : Z -> text.
Variable nfkc : text -> text.

(** default_input_text_plugin.py:41-76: the loop at index [i], after
    [offset += next_offset].  [rest] is [text[i:]]. *)
Fixpoint default_loop (fuel : nat) (cfg : default_cfg) (rest : text) (i : nat) (offset : Z) (bd : builder)
  : res builder :=
  match rest with
  | [] => Ok bd
  | original :: tl =>
    match fuel with
    | O => Err EFuel
    | S f =>
      let max_length := min (keylen original (d_keylen cfg)) (length rest) in
      match find_key (d_map cfg) rest max_length with
      | Some (l, rep) =>
        bd' <- replace bd (Z.of_nat i + offset) (Z.of_nat i + Z.of_nat l + offset) rep ;;
        default_loop f cfg (skipn l rest) (i + l) (offset + (Z.of_nat (length rep) - Z.of_nat l)) bd'
      | None =>
        let lo := lower original in
        if in_set lo (d_ignore cfg) && text_eqb [original] lo then
          default_loop f cfg tl (S i) offset bd
        else
          let rep := if in_set lo (d_ignore cfg) then lo else nfkc lo in
          bd' <- (if text_eqb [original] rep then Ok bd
                  else replace bd (Z.of_nat i + offset) (Z.of_nat i + 1 + offset) rep) ;;
          default_loop f cfg tl (S i) (offset + (Z.of_nat (length rep) - 1)) bd'
      end
    end
  end.

(** default_input_text_plugin.py:35-76 *)
Definition default_rewrite (cfg : default_cfg) (bd : builder) : res builder :=
  default_loop (length (b_mod bd)) cfg (b_mod bd) 0 0 bd.
End default.

(** prolongedsoundmark.py:20-28 *)
Record psm_cfg := PsmCfg { psm_set : list Z; psm_symbol : text }.

Definition is_psm (cfg : psm_cfg) (c : Z) : bool := existsb (Z.eqb c) (psm_set cfg).

(** prolongedsoundmark.py:39-50: [start = Some m] iff [is_psm], with
    [m_start_idx = m]; [rest] is [text[i:]], the last case is line 49-50. *)
Fixpoint psm_loop (cfg : psm_cfg) (rest : text) (i : nat) (offset : Z) (start : option nat) (bd : builder)
  : res builder :=
  match rest with
  | [] =>
    match start with
    | Some m =>
      if (1 <? i - m)%nat
      then replace bd (Z.of_nat m - offset) (Z.of_nat i - offset) (psm_symbol cfg)
      else Ok bd
    | None => Ok bd
    end
  | cp :: tl =>
    match start with
    | None => psm_loop cfg tl (S i) offset (if is_psm cfg cp then Some i else None) bd
    | Some m =>
      if is_psm cfg cp then psm_loop cfg tl (S i) offset start bd
      else if (1 <? i - m)%nat then
        bd' <- replace bd (Z.of_nat m - offset) (Z.of_nat i - offset) (psm_symbol cfg) ;;
        psm_loop cfg tl (S i) (offset + (Z.of_nat i - Z.of_nat m - 1)) None bd'
      else psm_loop cfg tl (S i) offset None bd
    end
  end.

(** prolongedsoundmark.py:33-50 *)
Definition psm_rewrite (cfg : psm_cfg) (bd : builder) : res builder :=
  psm_loop cfg (b_mod bd) 0 0 None bd.
