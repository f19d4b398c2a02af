(** Model of the debug output: Lattice.dump, Tokenizer._dump_path, the logger of
    Tokenizer.tokenize and the option -d of the command `tokenize`. *)
From Coq Require Import String Ascii List ZArith Lia Bool Arith.
From Verif Require Import Base Utf8 M_Builder M_CharCategory M_InputText M_InputPlugins M_Lattice M_Oov M_Tokenizer M_Morphemes M_NumericParser M_PathRewrite M_Shipped
  M_Bytes M_DicReader M_DicBuilder M_LexiconSet M_Front M_Resource M_Setup M_Command M_Tokenize.
Import ListNotations.
Open Scope list_scope.
Open Scope Z_scope.

Section debug.
(** [str] of an integer, as in '%d' and in '{}' *)
Variable str : Z -> text.
(** [grammar.get_part_of_speech_string(pos_id)] of an id that is not negative;
    [grammar.get_connect_cost(right id of the left node, left id of the right node)] *)
Variable pos_string : Z -> res (list text).
Variable connect : Z -> Z -> res Z.
Definition strn (n : nat) : text := str (Z.of_nat n).
Definition space : text := [32].

(** ** lattice.pyx:124-153 *)
Section dump.
Variable lexinfo : Z -> res word_info.

(** lattice.pyx:131-139: the surface and the part of speech *)
Definition dump_name (w : wnode) : res (text * text) :=
  if negb (w_defined w) then Ok (null_surface, lit "BOS/EOS")
  else
    wi <- node_info lexinfo w ;;
    if wi_pos wi <? 0 then Ok (wi_surface wi, null_surface)
    else ps <- pos_string (wi_pos wi) ;; Ok (wi_surface wi, join_with comma ps).

(** lattice.pyx:131-153: one node *)
Definition dump_line (lists : list (list lnode)) (index : nat) (w : wnode) : res text :=
  ' (surface, pos) <- dump_name w ;;
  ls <- get lists (w_begin w) ;;
  costs <- mapM (fun l => connect (w_right (ln_word l)) (w_left w)) ls ;;
  Ok (strn index ++ lit ": " ++ strn (w_begin w) ++ space ++ strn (w_end w) ++ space ++ surface ++ lit "(" ++ str (w_id w) ++ lit ") " ++
      pos ++ space ++ str (w_left w) ++ space ++ str (w_right w) ++ space ++ str (w_cost w) ++ lit ": " ++ join_with 32 (map str costs)).

(** lattice.pyx:130-153: the nodes of one list; [index] lines were written before *)
Fixpoint dump_nodes (lists : list (list lnode)) (index : nat) (ws : list wnode) : gen text :=
  match ws with
  | [] => ([], None)
  | w :: r =>
    match dump_line lists (S index) w with
    | Err e => ([], Some e)
    | Ok t => let '(ts, e) := dump_nodes lists (S index) r in (t :: ts, e)
    end
  end.

(** lattice.pyx:128-153: the lists [i], [i-1], ..., 0 *)
Fixpoint dump_lists (lists : list (list lnode)) (index i : nat) : gen text :=
  match get lists i with
  | Err e => ([], Some e)
  | Ok ns =>
    match dump_nodes lists index (map ln_word ns) with
    | (ts, Some e) => (ts, Some e)
    | (ts, None) =>
      match i with
      | O => (ts, None)
      | S j => let '(ts', e) := dump_lists lists (index + length ns) j in (ts ++ ts', e)
      end
    end
  end.

(** lattice.pyx:124-153 with a logger that is not disabled; the end of the sentence comes
    first *)
Definition dump (lat : lattice) : gen text :=
  match l_eos lat with
  | None => ([], Some EAttribute)
  | Some n =>
    match dump_nodes (l_lists lat) 0 [ln_word n] with
    | (ts, Some e) => (ts, Some e)
    | (ts, None) => let '(ts', e) := dump_lists (l_lists lat) 1 (l_size lat) in (ts ++ ts', e)
    end
  end.

(** latticenode.pyx:107-114 *)
Definition node_str (w : wnode) : res text :=
  surface <- (if (0 <=? w_id w) || match w_extra w with Some _ => true | None => false end
              then wi <- node_info lexinfo w ;; Ok (wi_surface wi) else Ok (lit "(None)")) ;;
  Ok (strn (w_begin w) ++ space ++ strn (w_end w) ++ space ++ surface ++ lit "(" ++ str (w_id w) ++ lit ") " ++
      str (w_left w) ++ space ++ str (w_right w) ++ space ++ str (w_cost w)).

(** tokenizer.pyx:193-197 with a logger that is not disabled; the last character of a line is
    U+FFFF.  [i] lines were written before. *)
Fixpoint dump_path (i : nat) (ws : list wnode) : gen text :=
  match ws with
  | [] => ([], None)
  | w :: r =>
    match node_str w with
    | Err e => ([], Some e)
    | Ok t => let '(ts, e) := dump_path (S i) r in ((strn i ++ lit ": " ++ t ++ [0xFFFF]) :: ts, e)
    end
  end.
End dump.

(** ** tokenizer.pyx:120-167 with a logger that is not disabled and does not raise: the
    lattice, the records, the result.  The dump of the lattice comes before [get_best_path]. *)
Definition logged_run (cfg : M_Tokenizer.config) (lat : lattice) (t : text) (m : mode)
  : lattice * list text * res (option (input_text * list wnode)) :=
  match t with
  | [] => (lat, [], Ok None)
  | _ =>
    match run_prepare cfg t with
    | Err e => (lat, [], Err e)
    | Ok it =>
      let r0 := [lit "=== Inupt dump:"; it_mod it] in
      match build_lattice (cf_view cfg) eos_parameter (can_bow it) (run_candidates cfg it) lat (length (it_bytes it)) with
      | (lat1, Some e) => (lat1, r0, Err e)
      | (lat1, None) =>
        let '(d1, x) := dump (cf_lexinfo cfg) lat1 in
        let r1 := r0 ++ lit "=== Lattice dump:" :: d1 in
        match x with
        | Some e => (lat1, r1, Err e)
        | None =>
          match get_best_path lat1 with
          | Err e => (lat1, r1, Err e)
          | Ok path =>
            let '(d2, x) := dump_path (cf_lexinfo cfg) 0 path in
            let r2 := r1 ++ lit "=== Before Rewriting:" :: d2 in
            match x with
            | Some e => (lat1, r2, Err e)
            | None =>
              match foldM (fun p plugin => plugin it p lat1) path (cf_rewrites cfg) with
              | Err e => (lat1, r2, Err e)
              | Ok path1 =>
                match lat_clear lat1 with
                | Err e => (lat1, r2, Err e)
                | Ok lat2 =>
                  match split_path (cf_lexinfo cfg) m path1 with
                  | Err e => (lat2, r2, Err e)
                  | Ok path2 =>
                    let '(d3, x) := dump_path (cf_lexinfo cfg) 0 path2 in
                    let r3 := r2 ++ lit "=== After Rewriting:" :: d3 in
                    match x with
                    | Some e => (lat2, r3, Err e)
                    | None => (lat2, r3 ++ [lit "==="], Ok (Some (it, path2)))
                    end
                  end
                end
              end
            end
          end
        end
      end
    end
  end.
End debug.

(** ** The option -d *)
Section command.
Variable order : list cat -> list cat.
Variable lower : Z -> text.
Variable nfkc : text -> text.
Variable search : bytes -> bytes -> list (Z * nat).
Variable limit : nat.
Variable str : Z -> text.
Notation created := (created order lower nfkc search limit).

(** A tokenizer of the Dictionary [m] that logs: the grammar is that of the Dictionary *)
Definition logged_tokenize (m : made) : lattice -> text -> mode -> lattice * list text * res (option (input_text * list wnode)) :=
  logged_run str (get_part_of_speech_string (ds_grammar (md_set m))) (get_connect_cost (ds_grammar (md_set m))) (created m).

(** command_line.py:61-77 with -d: the records of the tokenizer, those of the morphemes *)
Fixpoint logged_lines (m : made) (md : mode) (all : bool) (lat : lattice) (lines : list text) (e : option exn) : gen text :=
  match lines with
  | [] => ([], e)
  | line :: rest =>
    match logged_tokenize m lat (rstrip line) md with
    | (_, ds, Err x) => (ds, Some x)
    | (lat', ds, Ok r) =>
      let '(fs, x) := collect (get_fields order lower nfkc search limit m (morphemes_of r)) (ml_iter (morphemes_of r)) in
      match x with
      | Some x => (ds ++ map (line_of str all) fs, Some x)
      | None => let '(rs, x') := logged_lines m md all lat' rest e in (ds ++ map (line_of str all) fs ++ EOS :: rs, x')
      end
    end
  end.
End command.
