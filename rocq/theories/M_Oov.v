(** Model of sudachipy/plugin/oov/{oov_provider_plugin,simple_oov_plugin,mecab_oov_plugin}.py. *)
From Coq Require Import List ZArith Lia Bool Arith.
From Verif Require Import Base Utf8 M_Builder M_InputText M_Lattice.
Import ListNotations.
Open Scope Z_scope.

(** oov_provider_plugin.py:40-44 *)
Definition create_oov_node : wnode := set_oov blank_node.

(** mecab_oov_plugin.py:90-98 and simple_oov_plugin.py:34-42: a node with its
    parameters and word info. *)
Definition oov_info (s : text) (len : nat) (pos : Z) : word_info :=
  WordInfo s len pos s (-1) s [] [] [] [] [].
Definition oov_node (s : text) (len : nat) (left right cost pos : Z) : wnode :=
  set_word_info (set_parameter create_oov_node left right cost) (oov_info s len pos).

(** simple_oov_plugin.py:22-30 *)
Record simple_cfg := SimpleCfg { so_left : Z; so_right : Z; so_cost : Z; so_pos : Z }.

(** simple_oov_plugin.py:32-44 *)
Definition simple_provide (cfg : simple_cfg) (it : input_text) (offset : nat) (has_other : bool) : res (list wnode) :=
  if negb has_other then
    len <- get_word_candidate_length it offset ;;
    s <- get_substring it (Z.of_nat offset) (Z.of_nat (offset + len)) ;;
    Ok [oov_node s len (so_left cfg) (so_right cfg) (so_cost cfg) (so_pos cfg)]
  else Ok [].

(** mecab_oov_plugin.py:26-31 *)
Record cat_info := CatInfo { ci_invoke : bool; ci_group : bool; ci_length : Z }.
(** mecab_oov_plugin.py:33-38 *)
Record oov_entry := OovEntry { oe_left : Z; oe_right : Z; oe_cost : Z; oe_pos : Z }.
(** mecab_oov_plugin.py:40-48: [categories] and [oov_list] *)
Record mecab_cfg := MecabCfg {
  mc_info : cat -> option cat_info;
  mc_oovs : cat -> option (list oov_entry);
}.

(** mecab_oov_plugin.py:90-98 *)
Definition mecab_node (s : text) (len : nat) (o : oov_entry) : wnode :=
  oov_node s len (oe_left o) (oe_right o) (oe_cost o) (oe_pos o).

(** mecab_oov_plugin.py:81-87: the loop over [i], from [i] on, [k] values left.
    [llength] may have become negative. *)
Fixpoint mecab_lengths (it : input_text) (offset : nat) (oovs : list oov_entry) (llength : Z) (i k : nat)
  : res (list wnode) :=
  match k with
  | O => Ok []
  | S k' =>
    sub <- get_code_points_offset_length it offset i ;;
    if llength <? Z.of_nat sub then Ok []
    else
      s <- get_substring it (Z.of_nat offset) (Z.of_nat (offset + sub)) ;;
      r <- mecab_lengths it offset oovs llength (S i) k' ;;
      Ok (map (mecab_node s sub) oovs ++ r)
  end.

(** mecab_oov_plugin.py:67-87: the body of the loop over the categories.  Line 80
    decrements [llength] once per OOV entry. *)
Definition mecab_category (cfg : mecab_cfg) (it : input_text) (offset length_ : nat) (has_other : bool) (c : cat)
  : res (list wnode) :=
  match mc_info cfg c, mc_oovs cfg c with
  | Some info, Some oovs =>
    if negb (ci_invoke info) && has_other then Ok []
    else
      group <- (if ci_group info
                then s <- get_substring it (Z.of_nat offset) (Z.of_nat (offset + length_)) ;;
                     Ok (map (mecab_node s length_) oovs)
                else Ok []) ;;
      let llength := if ci_group info then Z.of_nat length_ - Z.of_nat (length oovs) else Z.of_nat length_ in
      r <- mecab_lengths it offset oovs llength 1 (Z.to_nat (ci_length info)) ;;
      Ok (group ++ r)
  | _, _ => Ok []
  end.

(** mecab_oov_plugin.py:61-88 *)
Definition mecab_provide (cfg : mecab_cfg) (it : input_text) (offset : nat) (has_other : bool) : res (list wnode) :=
  length_ <- get_cont_length it offset ;;
  if (length_ <? 1)%nat then Ok []
  else
    cats <- get_cats_at it offset ;;
    nss <- mapM (mecab_category cfg it offset length_ has_other) cats ;;
    Ok (concat nss).

(** plugin/oov/utils.py:22-31: the two kinds of provider that can be configured *)
Inductive provider := Simple (cfg : simple_cfg) | MeCab (cfg : mecab_cfg).
Definition provide_oov (p : provider) :=
  match p with Simple cfg => simple_provide cfg | MeCab cfg => mecab_provide cfg end.

(** oov_provider_plugin.py:33-38 *)
Definition get_oov (p : provider) (it : input_text) (offset : nat) (has_other : bool) : res (list wnode) :=
  ns <- provide_oov p it offset has_other ;;
  Ok (map (fun w => set_range w offset (offset + match w_extra w with Some wi => wi_length wi | None => 0 end)%nat) ns).
