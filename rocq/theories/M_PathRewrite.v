(** Model of sudachipy/plugin/path_rewrite/{path_rewrite_plugin,join_katakana_oov_plugin,
    join_numeric_plugin}.py.  The plugins change the path in place; here they answer
    the new path. *)
From Coq Require Import List ZArith Lia Bool Arith.
From Verif Require Import Base Utf8 M_Builder M_InputText M_Lattice M_NumericParser.
Import ListNotations.
Open Scope Z_scope.

Section rewrite.
(** [self.lexicon.get_word_info] of the nodes *)
Variable lexinfo : Z -> res word_info.

(** path_rewrite_plugin.py:57, 68, 87: [path[begin:end] = [node]] *)
Definition splice (path : list wnode) (b e : nat) (w : wnode) : list wnode :=
  firstn b path ++ w :: skipn e path.

(** path_rewrite_plugin.py:30-58 *)
Definition concatenate (path : list wnode) (b e : nat) (norm : text) : res (list wnode) :=
  if (e <=? b)%nat then Err EIndex
  else
    first <- get path b ;;
    last <- get path (e - 1) ;;
    info0 <- node_info lexinfo first ;;
    infos <- mapM (node_info lexinfo) (slice path b e) ;;
    let norm' := match norm with [] => concat (map wi_norm infos) | _ => norm end in
    let wi := WordInfo (concat (map wi_surface infos)) (list_sum (map wi_length infos)) (wi_pos info0)
                norm' (-1) (concat (map wi_dic infos)) (concat (map wi_reading infos)) [] [] [] [] in
    Ok (splice path b e (set_word_info (set_range blank_node (w_begin first) (w_end last)) wi)).

(** path_rewrite_plugin.py:60-88 *)
Definition concatenate_oov (lat : lattice) (path : list wnode) (b e : nat) (pos : Z) : res (list wnode) :=
  if (e <=? b)%nat then Err EIndex
  else
    first <- get path b ;;
    last <- get path (e - 1) ;;
    m <- get_minimum_node lat (w_begin first) (w_end last) ;;
    match m with
    | Some n => Ok (splice path b e n)
    | None =>
      infos <- mapM (node_info lexinfo) (slice path b e) ;;
      let s := concat (map wi_surface infos) in
      let wi := WordInfo s (list_sum (map wi_length infos)) pos s (-1) s [] [] [] [] [] in
      Ok (splice path b e (set_oov (set_word_info (set_range blank_node (w_begin first) (w_end last)) wi)))
    end.

(** path_rewrite_plugin.py:90-91 *)
Definition node_cats (it : input_text) (w : wnode) : res (list cat) := get_cats_range it (w_begin w) (w_end w).

(** ** Katakana *)
(** join_katakana_oov_plugin.py:23-35 *)
Record katakana_cfg := KatakanaCfg { jk_pos : Z; jk_min : Z }.

(** join_katakana_oov_plugin.py:71-72 *)
Definition is_katakana (it : input_text) (w : wnode) : res bool :=
  cs <- node_cats it w ;; Ok (cat_mem KATAKANA cs).
(** join_katakana_oov_plugin.py:78-79 *)
Definition can_oov_bow (it : input_text) (w : wnode) : res bool :=
  cs <- get_cats_at it (w_begin w) ;; Ok (negb (cat_mem NOOOVBOW cs)).
(** join_katakana_oov_plugin.py:81-83 *)
Definition is_shorter (len : Z) (it : input_text) (w : wnode) : res bool :=
  n <- code_point_count it (w_begin w) (w_end w) ;; Ok (n <? len).

(** join_katakana_oov_plugin.py:47-55: the first of the katakana nodes that end at
    index [i] *)
Fixpoint kata_begin (it : input_text) (path : list wnode) (i : nat) : res nat :=
  match i with
  | O => Ok O
  | S j =>
    w <- get path j ;; k <- is_katakana it w ;;
    if k then kata_begin it path j else Ok i
  end.
(** join_katakana_oov_plugin.py:56-62: from [e] on, [k] nodes left *)
Fixpoint kata_end (it : input_text) (path : list wnode) (e k : nat) : res nat :=
  match k with
  | O => Ok e
  | S k' =>
    w <- get path e ;; kk <- is_katakana it w ;;
    if kk then kata_end it path (S e) k' else Ok e
  end.
(** join_katakana_oov_plugin.py:64-65: from [b] on, [k = end - b] *)
Fixpoint skip_nobow (it : input_text) (path : list wnode) (b k : nat) : res nat :=
  match k with
  | O => Ok b
  | S k' =>
    w <- get path b ;; c <- can_oov_bow it w ;;
    if c then Ok b else skip_nobow it path (S b) k'
  end.

(** join_katakana_oov_plugin.py:43-44: is there something to join at this node? *)
Definition kata_trigger (cfg : katakana_cfg) (it : input_text) (w : wnode) : res bool :=
  a <- (if w_oov w then Ok true else is_shorter (jk_min cfg) it w) ;;
  if a then is_katakana it w else Ok false.

(** join_katakana_oov_plugin.py:38-69: the loop from index [i] on *)
Fixpoint kata_loop (cfg : katakana_cfg) (it : input_text) (lat : lattice) (fuel : nat) (path : list wnode) (i : nat)
  : res (list wnode) :=
  match fuel with
  | O => Err EFuel
  | S f =>
    if (length path <=? i)%nat then Ok path
    else
      w <- get path i ;;
      t <- kata_trigger cfg it w ;;
      if negb t then kata_loop cfg it lat f path (S i)
      else
        b0 <- kata_begin it path i ;;
        e <- kata_end it path (S i) (length path - S i) ;;
        b <- skip_nobow it path b0 (e - b0) ;;
        if (1 <? e - b)%nat then
          path' <- concatenate_oov lat path b e (jk_pos cfg) ;;
          kata_loop cfg it lat f path' (b + 2)
        else kata_loop cfg it lat f path (S i)
  end.

(** join_katakana_oov_plugin.py:37-69.  The index grows, so that one more turn than
    there are nodes is enough. *)
Definition join_katakana (cfg : katakana_cfg) (it : input_text) (path : list wnode) (lat : lattice) : res (list wnode) :=
  kata_loop cfg it lat (S (length path)) path 0.

(** ** Numbers *)
(** join_numeric_plugin.py:23-38 *)
Record numeric_cfg := NumericCfg { jn_pos : Z; jn_normalize : bool }.

(** join_numeric_plugin.py:97-106 *)
Definition jn_concat (cfg : numeric_cfg) (path : list wnode) (b e : nat) (p : parser) : res (list wnode) :=
  first <- get path b ;;
  info <- node_info lexinfo first ;;
  if negb (wi_pos info =? jn_pos cfg) then Ok path
  else if jn_normalize cfg then
    '(norm, _) <- p_normalized p ;;
    if (1 <? e - b)%nat || negb (list_eqb Z.eqb norm (wi_norm info)) then concatenate path b e norm
    else Ok path
  else if (1 <? e - b)%nat then concatenate path b e [] else Ok path.

(** join_numeric_plugin.py:41-45: the local variables; [js_next] is [i + 1] *)
Record jn_state := JnState {
  js_path : list wnode;
  js_next : nat;
  js_begin : option nat;
  js_comma : bool;
  js_period : bool;
  js_parser : parser;
}.

Definition comma_text : text := [44].
Definition point_text : text := [46].

(** join_numeric_plugin.py:52-53 *)
Definition treated_as_digit (comma period : bool) (cs : list cat) (s : text) : bool :=
  cat_mem NUMERIC cs || cat_mem KANJINUMERIC cs
  || (period && list_eqb Z.eqb s point_text) || (comma && list_eqb Z.eqb s comma_text).

(** join_numeric_plugin.py:78-79, 93-94: the text ended with a comma or point that
    does not belong to the number *)
Definition trailing (p : parser) (ss : text) : bool :=
  match p_error p with
  | PComma => list_eqb Z.eqb ss comma_text
  | PPoint => list_eqb Z.eqb ss point_text
  | _ => false
  end.

(** join_numeric_plugin.py:47-86: one turn of the loop, [js_next < length path] *)
Definition jn_step (cfg : numeric_cfg) (it : input_text) (st : jn_state) : res jn_state :=
  let path := js_path st in
  let i := js_next st in
  w <- get path i ;;
  cs <- node_cats it w ;;
  info <- node_info lexinfo w ;;
  let s := wi_norm info in
  if treated_as_digit (js_comma st) (js_period st) cs s then
    let '(b, p) := match js_begin st with Some b => (b, js_parser st) | None => (i, p_clear (js_parser st)) end in
    let '(ok, p') := p_feed p s in
    if ok then Ok (JnState path (S i) (Some b) (js_comma st) (js_period st) p')
    else match p_error p' with
         | PComma => Ok (JnState path b None false (js_period st) p')
         | PPoint => Ok (JnState path b None (js_comma st) false p')
         | _ => Ok (JnState path (S i) None (js_comma st) (js_period st) p')
         end
  else
    let comma' := if negb (js_comma st) && negb (list_eqb Z.eqb s comma_text) then true else js_comma st in
    let period' := if negb (js_period st) && negb (list_eqb Z.eqb s point_text) then true else js_period st in
    match js_begin st with
    | None => Ok (JnState path (S i) None comma' period' (js_parser st))
    | Some b =>
      let '(ok, p') := p_done (js_parser st) in
      if ok then
        path' <- jn_concat cfg path b i p' ;;
        Ok (JnState path' (b + 2) None comma' period' p')
      else
        (* [path[i - 1]]: a number is being read, so that i > 0 *)
        prev <- get path (i - 1) ;;
        pinfo <- node_info lexinfo prev ;;
        if trailing p' (wi_norm pinfo) then
          path' <- jn_concat cfg path b (i - 1) p' ;;
          Ok (JnState path' (b + 3) None comma' period' p')
        else Ok (JnState path (S i) None comma' period' p')
    end.

(** join_numeric_plugin.py:88-95: after the loop *)
Definition jn_finish (cfg : numeric_cfg) (st : jn_state) : res (list wnode) :=
  let path := js_path st in
  match js_begin st with
  | None => Ok path
  | Some b =>
    let '(ok, p') := p_done (js_parser st) in
    if ok then jn_concat cfg path b (length path) p'
    else
      prev <- get path (length path - 1) ;;
      pinfo <- node_info lexinfo prev ;;
      if trailing p' (wi_norm pinfo) then jn_concat cfg path b (length path - 1) p' else Ok path
  end.

Fixpoint jn_loop (cfg : numeric_cfg) (it : input_text) (fuel : nat) (st : jn_state) : res (list wnode) :=
  match fuel with
  | O => Err EFuel
  | S f =>
    if (js_next st <? length (js_path st))%nat then st' <- jn_step cfg it st ;; jn_loop cfg it f st'
    else jn_finish cfg st
  end.

Definition jn_init (path : list wnode) : jn_state := JnState path 0 None true true p_new.

(** join_numeric_plugin.py:40-95.  The loop need not terminate; [Err EFuel] stands
    for a loop that is still running after as many turns as are enough for every
    loop that ends (C31). *)
Definition jn_fuel (n : nat) : nat := 3 * (n + 1) * (n + 1) + 1.
Definition join_numeric (cfg : numeric_cfg) (it : input_text) (path : list wnode) : res (list wnode) :=
  jn_loop cfg it (jn_fuel (length path)) (jn_init path).

(** plugin/path_rewrite/utils.py: the two kinds of plugin *)
Inductive rewriter := JoinKatakana (cfg : katakana_cfg) | JoinNumeric (cfg : numeric_cfg).
Definition rewrite_with (r : rewriter) (it : input_text) (path : list wnode) (lat : lattice) : res (list wnode) :=
  match r with
  | JoinKatakana cfg => join_katakana cfg it path lat
  | JoinNumeric cfg => join_numeric cfg it path
  end.
End rewrite.
