(** The build commands: that the single operations make the file of [build_command], and what
    the file begins with at any time. *)
From Coq Require Import List ZArith Lia Bool Arith.
From Verif Require Import Base Utf8 M_Builder M_Lattice M_Tokenizer M_Bytes P_Bytes M_DicReader M_DicBuilder P_DicFormat P_DicWrite P_DicOpen P_DicGrammar
  P_DicSource P_DicLexicon P_DicFile M_Front M_Resource M_Command Prop_Cut.
Import M_Bytes.
Import ListNotations.
Open Scope Z_scope.

(** ** Writers and files *)
Lemma replay_app f a b : replay_from f (a ++ b) = replay_from (replay_from f a) b.
Proof. apply fold_left_app. Qed.
(** The position that a writer reckons with is the position of the file. *)
Definition steady {A} (w : writer A) : Prop := forall f ops p r, w (f_pos f) = (ops, p, r) -> f_pos (replay_from f ops) = p.
Lemma write_pos f b : f_pos (f_write f b) = (f_pos f + length b)%nat.
Proof. destruct b; cbn [f_write f_pos length]; lia. Qed.
Lemma steady_lift {A} (x : res A) : steady (w_lift x).
Proof. intros f ops p r [= <- <- _]. reflexivity. Qed.
Lemma steady_put b : steady (w_put b).
Proof. intros f ops p r [= <- <- _]. apply write_pos. Qed.
Lemma steady_seek i : steady (w_seek i).
Proof. intros f ops p r [= <- <- _]. reflexivity. Qed.
Lemma steady_tell : steady w_tell.
Proof. intros f ops p r [= <- <- _]. reflexivity. Qed.
Lemma steady_bind {A B} (m : writer A) (g : A -> writer B) : steady m -> (forall a, steady (g a)) -> steady (w_bind m g).
Proof.
  intros M G f ops p r. unfold w_bind. destruct (m (f_pos f)) as [[o1 p1] r1] eqn:E. specialize (M _ _ _ _ E). destruct r1 as [a|e].
  - rewrite <- M. destruct (g a _) as [[o2 p2] r2] eqn:E2. specialize (G _ _ _ _ _ E2). intros [= <- <- _]. now rewrite replay_app.
  - intros [= <- <- _]. exact M.
Qed.

(** What a writer does to a file when there is no exception *)
Definition exec {A} (w : writer A) (f : file) : res (A * file) :=
  let '(ops, _, r) := w (f_pos f) in a <- r ;; Ok (a, replay_from f ops).
Lemma exec_bind {A B} (m : writer A) (g : A -> writer B) f : steady m ->
  exec (w_bind m g) f = ('(a, f') <- exec m f ;; exec (g a) f').
Proof.
  intros M. unfold exec, w_bind. destruct (m (f_pos f)) as [[o1 p1] r1] eqn:E. specialize (M _ _ _ _ E). destruct r1 as [a|e]; [|reflexivity].
  cbn [bind]. rewrite M. destruct (g a p1) as [[o2 p2] r2]. destruct r2; cbn [bind]; [|reflexivity]. now rewrite replay_app.
Qed.
Lemma exec_lift {A} (x : res A) f : exec (w_lift x) f = (a <- x ;; Ok (a, f)).
Proof. destruct x; reflexivity. Qed.
Lemma exec_put b f : exec (w_put b) f = Ok (tt, f_write f b).
Proof. reflexivity. Qed.
Lemma exec_seek i f : exec (w_seek i) f = Ok (tt, f_seek f i).
Proof. reflexivity. Qed.
Lemma exec_tell f : exec w_tell f = Ok (f_pos f, f).
Proof. reflexivity. Qed.
Ltac ex := repeat first [rewrite exec_bind by (apply steady_lift || apply steady_put || apply steady_seek || apply steady_tell)
                        |rewrite exec_lift|rewrite exec_put|rewrite exec_seek|rewrite exec_tell|progress cbn [bind]].

Section builder.
Variable k : kind.
Variable py_int : text -> res Z.
Variable is_digit : Z -> bool.
Variable trie_array : list (bytes * Z) -> res bytes.
Notation emit_infos := (emit_infos k py_int is_digit).
Notation emit_wordinfo := (emit_wordinfo k py_int is_digit).
Notation emit_lexicon := (emit_lexicon k py_int is_digit trie_array).
Notation emit_command := (emit_command k py_int is_digit trie_array).

Ltac st := repeat first [apply steady_lift|apply steady_put|apply steady_seek|apply steady_tell|apply steady_bind|lazymatch goal with |- forall _ : _ * _, _ => intros [? ?] | |- forall _, _ => intros ? end].
Lemma steady_grammar table ms : steady (emit_grammar table ms).
Proof. unfold emit_grammar. st. destruct ms; st. Qed.
Lemma steady_params l : forall b, steady (emit_params b l).
Proof. induction l as [|e l IH]; intros b; cbn [emit_params]; st. apply IH. Qed.
Lemma steady_infos entries l : forall table, steady (emit_infos entries table l).
Proof. induction l as [|e l IH]; intros table; cbn [M_Command.emit_infos]; [st|]. st. apply IH. Qed.
Lemma steady_wordinfo entries table : steady (emit_wordinfo entries table).
Proof. unfold M_Command.emit_wordinfo. st. apply steady_infos. Qed.
Lemma steady_lexicon s : steady (emit_lexicon s).
Proof. unfold M_Command.emit_lexicon.
  repeat first [apply steady_params|apply steady_wordinfo|apply steady_lift|apply steady_put|apply steady_bind
               |lazymatch goal with |- forall _ : _ * _, _ => intros [? ?] | |- forall _, _ => intros ? end]. Qed.

(** ** The file of a build without exceptions *)
Lemma exec_grammar table ms f : exec (emit_grammar table (option_map Ok ms)) f = (g <- write_grammar table ms f ;; Ok (tt, g)).
Proof.
  unfold emit_grammar, write_grammar. ex. destruct (convert_postable table) as [pt|e]; [|reflexivity]. ex. destruct ms as [ms|]; cbn [option_map].
  - ex. destruct (convert_matrix ms) as [[h m]|e]; [|reflexivity]. ex. reflexivity.
  - ex. destruct (put_short 0) as [a|e]; [|reflexivity]. ex. reflexivity.
Qed.
Lemma write_at_end f b : f_pos f = length (f_data f) -> f_pos (f_write f b) = length (f_data (f_write f b)).
Proof. intros H. rewrite f_write_end by auto. reflexivity. Qed.
Lemma write_end_app f a b : f_pos f = length (f_data f) -> f_write (f_write f a) b = f_write f (a ++ b).
Proof.
  intros H. rewrite (f_write_end f a), (f_write_end f (a ++ b)) by auto. rewrite f_write_end by reflexivity. cbn [f_data]. now rewrite <- app_assoc.
Qed.
Lemma exec_params l : forall buffer f, f_pos f = length (f_data f) ->
  exec (emit_params buffer l) f = (ps <- put_all put_params l ;; Ok (tt, f_write f (match l with [] => [] | _ => buffer ++ ps end))).
Proof.
  induction l as [|e l IH]; intros buffer f H; cbn [emit_params put_all]; [reflexivity|]. ex.
  destruct (put_params e) as [b|x]; [|reflexivity]. ex. rewrite IH by (rewrite f_write_end by auto; reflexivity).
  destruct (put_all put_params l) as [ps|x] eqn:E; [|reflexivity]. cbn [bind]. f_equal. f_equal. destruct l as [|e' l].
  - cbn in E. injection E as <-. rewrite app_nil_r. reflexivity.
  - rewrite write_end_app by auto. now rewrite <- app_assoc.
Qed.
Lemma exec_infos entries l : forall table f,
  exec (emit_infos entries table l) f = ('(g, os) <- write_infos k py_int is_digit entries table f l ;; Ok (os, g)).
Proof.
  induction l as [|e l IH]; intros table f; cbn [M_Command.emit_infos write_infos]; [reflexivity|]. ex. unfold f_tell.
  destruct (put_int _) as [o|x]; [|reflexivity]. ex. destruct (put_word_info _ _ _ _ _ _) as [[b t]|x]; [|reflexivity]. ex.
  rewrite exec_bind by apply steady_infos. rewrite IH. destruct (write_infos _ _ _ _ _ _ _) as [[g os]|x]; reflexivity.
Qed.
Lemma exec_wordinfo entries table f : exec (emit_wordinfo entries table) f = (g <- write_wordinfo k py_int is_digit entries table f ;; Ok (tt, g)).
Proof.
  unfold M_Command.emit_wordinfo, write_wordinfo. ex. rewrite exec_bind by apply steady_infos. rewrite exec_infos. unfold f_tell.
  destruct (write_infos _ _ _ _ _ _ _) as [[g os]|x]; reflexivity.
Qed.
Lemma exec_lexicon s f : f_pos f = length (f_data f) ->
  exec (emit_lexicon s) f = (g <- write_lexicon k py_int is_digit trie_array s f ;; Ok (tt, g)).
Proof.
  intros H. unfold M_Command.emit_lexicon, write_lexicon. ex. destruct (wid_table 0 (s_keys s)) as [[kvs wids]|x]; [|reflexivity]. ex.
  destruct (trie_array kvs) as [array|x]; [|reflexivity]. ex. destruct (put_int (Z.of_nat (length array / 4))) as [b1|x]; [|reflexivity]. ex.
  destruct (put_int (Z.of_nat (length wids))) as [b2|x]; [|reflexivity]. ex. destruct (put_int (Z.of_nat (length (s_entries s)))) as [b3|x]; [|reflexivity]. ex.
  rewrite exec_bind by apply steady_params.
  rewrite exec_params by (do 4 apply write_at_end; exact H).
  destruct (put_all put_params (s_entries s)) as [ps|x]; [|reflexivity]. cbn [bind]. rewrite exec_wordinfo. reflexivity.
Qed.
Lemma write_grammar_pos table ms f g : f_pos f = length (f_data f) -> write_grammar table ms f = Ok g -> f_pos g = length (f_data g).
Proof.
  unfold write_grammar. intros H E. apply bind_ok in E as (pt & _ & E). rewrite f_write_end in E by auto. destruct ms as [ms|].
  - apply bind_ok in E as ((h & m) & _ & [= <-]). rewrite (f_write_end (File _ _) h) by reflexivity. now rewrite f_write_end by reflexivity.
  - apply bind_ok in E as (a & _ & E). apply bind_ok in E as (b & _ & [= <-]). now rewrite f_write_end by reflexivity.
Qed.

(** The operations of the commands, done one after the other, make the file of
    [build_command], with the same exceptions. *)
Theorem emit_builds now description rows ms ops p r :
  emit_command now description (Ok rows) (Ok ms) O = (ops, p, r) ->
  build_command k py_int is_digit trie_array now description rows (Some ms) = (_ <- r ;; Ok (f_data (replay ops))).
Proof.
  intros H. assert (X : exec (emit_command now description (Ok rows) (Ok ms)) (File [] 0) = (_ <- r ;; Ok (tt, replay ops))).
  { unfold exec. cbn [f_pos]. rewrite H. destruct r as [[]|]; reflexivity. }
  assert (E : exec (emit_command now description (Ok rows) (Ok ms)) (File [] 0) =
              (h <- header_to_bytes (Header (version_of k) now description) ;; f <- build_dictionary k py_int is_digit trie_array rows (Some ms) (f_write (File [] 0) h) ;; Ok (tt, f))).
  { clear X. unfold M_Command.emit_command, build_dictionary. ex. unfold version_of. destruct (header_to_bytes _) as [h|e]; [|reflexivity]. ex.
    destruct (build_lexicon k py_int new_source rows) as [s|e]; [|reflexivity]. ex. rewrite exec_bind by apply steady_grammar.
    replace (match k with SystemDic => Some (Ok ms) | UserDic _ _ _ => None end) with (option_map (@Ok matrix_source) (match k with SystemDic => Some ms | UserDic _ _ _ => None end)) by (destruct k; reflexivity).
    rewrite exec_grammar. destruct (write_grammar _ _ _) as [g|e] eqn:G; [|reflexivity]. cbn [bind].
    apply exec_lexicon. eapply write_grammar_pos; [|exact G]. rewrite f_write_end by reflexivity. reflexivity. }
  rewrite E in X. unfold build_command. fold (version_of k). destruct (header_to_bytes _) as [h|e]; cbn [bind] in *; [|destruct r; cbn [bind] in *; congruence].
  destruct (build_dictionary _ _ _ _ _ _ _) as [f|e]; cbn [bind] in *; destruct r; cbn [bind] in *; congruence.
Qed.
End builder.

(** ** What is in the file when not all has been done *)
Definition payload (ops : list fop) : bytes := concat (map (fun o => match o with Put b => b | SeekTo _ => [] end) ops).
Definition is_put (o : fop) : Prop := match o with Put _ => True | SeekTo _ => False end.
Definition keeps (n : nat) (o : fop) : Prop := match o with SeekTo i => (n <= i)%nat | Put _ => True end.

Lemma payload_app a b : payload (a ++ b) = payload a ++ payload b.
Proof. unfold payload. now rewrite map_app, concat_app. Qed.
Lemma replay_puts ops : Forall is_put ops -> forall f, f_pos f = length (f_data f) ->
  replay_from f ops = File (f_data f ++ payload ops) (length (f_data f ++ payload ops)).
Proof.
  induction 1 as [|o ops Ho F IH]; intros f Hf.
  - cbn. rewrite app_nil_r, <- Hf. now destruct f.
  - destruct o as [b|]; [|destruct Ho]. cbn [replay_from fold_left apply_op]. fold (replay_from (f_write f b) ops). rewrite IH by (now apply write_at_end).
    rewrite f_write_end by auto. cbn [f_data]. unfold payload. cbn [map concat]. now rewrite !app_assoc.
Qed.
Lemma write_prefix W f b rest : f_data f = W ++ rest -> (length W <= f_pos f)%nat -> exists rest', f_data (f_write f b) = W ++ rest'.
Proof.
  intros E L. unfold f_write. destruct b as [|x b]; [exists rest; exact E|]. cbn [f_data]. rewrite E, firstn_app.
  rewrite (firstn_all2 W) by lia. rewrite <- app_assoc. eauto.
Qed.
Lemma keeps_prefix W ops : Forall (keeps (length W)) ops -> forall f rest, f_data f = W ++ rest -> (length W <= f_pos f)%nat ->
  exists rest', f_data (replay_from f ops) = W ++ rest'.
Proof.
  induction 1 as [|o ops Ho F IH]; intros f rest E L; [eauto|]. cbn [replay_from fold_left]. fold (replay_from (apply_op f o) ops). destruct o as [b|i]; cbn [apply_op keeps] in *.
  - destruct (write_prefix _ _ b _ E L) as (rest' & E'). eapply IH; [exact E'|]. rewrite write_pos. lia.
  - eapply IH; [exact E|exact Ho].
Qed.
Lemma cut_app a b x : cut (a ++ b) x -> cut a x \/ exists y, cut b y /\ x = a ++ y.
Proof.
  revert x. induction a as [|o a IH]; intros x H; [right; eauto|]. cbn [app] in H. inversion H; subst.
  - left. constructor.
  - left. constructor.
  - destruct (IH _ H3) as [C|(y & C & ->)]; [left; now constructor|]. right. eauto.
Qed.
Lemma cut_all ops : cut ops ops.
Proof. induction ops; constructor; auto. Qed.
Lemma cut_puts ops ops' : cut ops ops' -> Forall is_put ops -> Forall is_put ops' /\ exists c, payload ops = payload ops' ++ c.
Proof.
  induction 1 as [ops|b c ops|o ops ops' C IH]; intros F.
  - split; [constructor|]. exists (payload ops). reflexivity.
  - split; [repeat constructor|]. unfold payload. cbn [map concat]. rewrite app_nil_r, <- app_assoc. eauto.
  - inversion F as [|? ? Fo F']; subst. destruct (IH F') as (G & c & E). split; [constructor; auto|]. exists c. unfold payload in *. cbn [map concat]. rewrite E. now rewrite app_assoc.
Qed.
Lemma cut_keeps n ops ops' : cut ops ops' -> Forall (keeps n) ops -> Forall (keeps n) ops'.
Proof.
  induction 1 as [ops|b c ops|o ops ops' C IH]; intros F; [constructor|repeat constructor|]. inversion F; subst. constructor; auto.
Qed.
(** At any time the file is a beginning of what was written before the first jump, or goes on
    from there. *)
Lemma cut_file puts tail ops' : Forall is_put puts -> Forall (keeps (length (payload puts))) tail -> cut (puts ++ tail) ops' ->
  (exists c, payload puts = f_data (replay ops') ++ c) \/ (exists c, f_data (replay ops') = payload puts ++ c).
Proof.
  intros P K C. destruct (cut_app _ _ _ C) as [C'|(y & C' & ->)].
  - left. destruct (cut_puts _ _ C' P) as (P' & c & E). exists c. unfold replay. rewrite replay_puts by auto. exact E.
  - right. unfold replay. rewrite replay_app, (replay_puts puts) by auto. cbn [f_data app].
    apply keeps_prefix with (rest := []); [exact (cut_keeps _ _ _ C' K)|cbn [f_data]; now rewrite app_nil_r|cbn [f_pos]; lia].
Qed.

(** ** The operations of the parts *)
Lemma w_bind_lift {A B} (x : res A) (g : A -> writer B) p : w_bind (w_lift x) g p = match x with Ok a => g a p | Err e => ([], p, Err e) end.
Proof. unfold w_bind, w_lift. destruct x; [|reflexivity]. now destruct (g a p) as [[? ?] ?]. Qed.
Lemma w_bind_put {B} b (g : unit -> writer B) p : w_bind (w_put b) g p = (let '(ops, q, r) := g tt (p + length b)%nat in (Put b :: ops, q, r)).
Proof. unfold w_bind, w_put. now destruct (g tt _) as [[? ?] ?]. Qed.
Lemma params_shape l : forall buffer p ops q r, emit_params buffer l p = (ops, q, r) -> Forall is_put ops /\ q = (p + length (payload ops))%nat.
Proof.
  induction l as [|e l IH]; intros buffer p ops q r H; cbn [emit_params] in H.
  - injection H as <- <- _. split; [constructor|]. cbn. lia.
  - rewrite w_bind_lift in H. destruct (put_params e) as [b|x]; [|injection H as <- <- _; split; [constructor|cbn; lia]].
    rewrite w_bind_put in H. destruct (emit_params [] l _) as [[o q'] r'] eqn:E. injection H as <- <- _. apply IH in E as (F & ->).
    split; [constructor; [exact I|auto]|]. unfold payload. cbn [map concat]. rewrite !app_length. lia.
Qed.

Section shapes.
Variable k : kind.
Variable py_int : text -> res Z.
Variable is_digit : Z -> bool.
Variable trie_array : list (bytes * Z) -> res bytes.

Lemma infos_shape entries l : forall table p ops q r, emit_infos k py_int is_digit entries table l p = (ops, q, r) -> Forall is_put ops.
Proof.
  induction l as [|e l IH]; intros table p ops q r H; cbn [M_Command.emit_infos] in H.
  - injection H as <- _ _. constructor.
  - unfold w_bind at 1, w_tell at 1 in H. rewrite w_bind_lift in H. destruct (put_int _) as [o|x]; [|injection H as <- _ _; constructor].
    rewrite w_bind_lift in H. destruct (put_word_info _ _ _ _ _ _) as [[b t]|x]; [|injection H as <- _ _; constructor].
    rewrite w_bind_put in H. unfold w_bind in H. destruct (emit_infos _ _ _ _ _ _ _) as [[o' q'] r'] eqn:E. apply IH in E.
    destruct r'; cbn in H; injection H as <- _ _; constructor; try exact I; auto. now rewrite app_nil_r.
Qed.
Lemma wordinfo_shape entries table p ops q r : emit_wordinfo k py_int is_digit entries table p = (ops, q, r) -> Forall (keeps p) ops.
Proof.
  unfold M_Command.emit_wordinfo. intros H. unfold w_bind at 1, w_tell at 1 in H. unfold w_bind at 1, w_seek at 1 in H. unfold w_bind at 1 in H.
  destruct (emit_infos _ _ _ _ _ _ _) as [[o' q'] r'] eqn:E. apply infos_shape in E.
  assert (K : Forall (keeps p) o') by (eapply Forall_impl; [|exact E]; intros [b|i] Hx; [exact I|destruct Hx]).
  destruct r'; cbn in H; injection H as <- _ _; constructor; cbn [keeps]; try lia; auto.
  apply Forall_app. split; [exact K|]. repeat constructor.
Qed.
Lemma lexicon_shape s p ops q r : emit_lexicon k py_int is_digit trie_array s p = (ops, q, r) ->
  (ops = [] /\ exists e, r = Err e) \/
  exists kvs wids array b1, wid_table 0 (s_keys s) = Ok (kvs, wids) /\ trie_array kvs = Ok array /\ put_int (Z.of_nat (length array / 4)) = Ok b1 /\
    ((ops = [Put b1; Put array] /\ exists e, r = Err e) \/
     exists b2 ps tail, put_int (Z.of_nat (length wids)) = Ok b2 /\ ops = ([Put b1; Put array; Put b2; Put wids] ++ ps) ++ tail /\ Forall is_put ps /\
       Forall (keeps (p + length (payload ([Put b1; Put array; Put b2; Put wids] ++ ps)))) tail).
Proof.
  unfold M_Command.emit_lexicon. intros H. rewrite w_bind_lift in H. destruct (wid_table 0 (s_keys s)) as [[kvs wids]|x] eqn:E1; [|injection H as <- _ <-; left; split; [reflexivity|eauto]].
  rewrite w_bind_lift in H. destruct (trie_array kvs) as [array|x] eqn:E2; [|injection H as <- _ <-; left; split; [reflexivity|eauto]].
  rewrite w_bind_lift in H. destruct (put_int (Z.of_nat (length array / 4))) as [b1|x] eqn:E3; [|injection H as <- _ <-; left; split; [reflexivity|eauto]].
  right. exists kvs, wids, array, b1. do 3 (split; [assumption || reflexivity|]).
  rewrite !w_bind_put in H. rewrite w_bind_lift in H. destruct (put_int (Z.of_nat (length wids))) as [b2|x] eqn:E4; [|injection H as <- _ <-; left; split; [reflexivity|eauto]].
  right. exists b2. rewrite !w_bind_put, w_bind_lift in H.
  destruct (put_int (Z.of_nat (length (s_entries s)))) as [b3|x].
  2:{ injection H as <- _ <-. exists [], []. split; [assumption || reflexivity|]. split; [reflexivity|]. split; constructor. }
  unfold w_bind in H. destruct (emit_params b3 (s_entries s) _) as [[ps q1] r1] eqn:EP. apply params_shape in EP as (FP & ->). destruct r1 as [u|x].
  - destruct (emit_wordinfo _ _ _ _ _ _) as [[tail q2] r2] eqn:EW. apply wordinfo_shape in EW. injection H as <- _ _.
    exists ps, tail. split; [assumption || reflexivity|]. split; [reflexivity|]. split; [exact FP|]. eapply Forall_impl; [|exact EW].
    intros o. rewrite payload_app, app_length. unfold payload at 2. cbn [map concat]. rewrite !app_length. cbn [length]. intros K. destruct o; cbn [keeps] in *; [exact I|]. lia.
  - injection H as <- _ _. exists ps, []. rewrite app_nil_r. split; [assumption || reflexivity|]. split; [reflexivity|]. split; [exact FP|constructor].
Qed.
End shapes.

(** ** Files without word parameters *)
Section core.
Variable search : bytes -> bytes -> list (Z * nat).

Lemma core_opens k now description h table ms gb array wids b1 b2 :
  header_to_bytes (Header (version_of k) now description) = Ok h -> 0 <= now -> ~ In 0 description ->
  write_grammar table ms (File h (length h)) = Ok (File (h ++ gb) (length (h ++ gb))) -> Forall readable_pos table ->
  (forall m, ms = Some m -> exists n, has_matrix n m) ->
  (length array mod 4 = 0)%nat -> put_int (Z.of_nat (length array / 4)) = Ok b1 -> put_int (Z.of_nat (length wids)) = Ok b2 ->
  let X := h ++ gb ++ b1 ++ array ++ b2 ++ wids in
  exists x g, read_dictionary X = Ok x /\ d_grammar x = Some g /\ params_at x = length X /\ lx_trie (d_lexicon x) = array /\ lx_wids (d_lexicon x) = wids /\
    g_pos g = map (split_on comma) table /\ (forall m n, ms = Some m -> has_matrix n m -> matrix_of g n m).
Proof.
  intros Hh T N Hg R M A4 Hb1 Hb2 X. destruct (header_ok _ _ Hh T N) as (Lh & Rh).
  destruct (write_grammar_reads _ _ _ _ Hg R M) as (gb' & Eg & RG). injection Eg as Eg _. apply app_inv_head in Eg. subst gb'.
  pose proof (put_int_ok _ _ Hb1) as (L1 & _). pose proof (put_int_unsigned _ _ Hb1 ltac:(lia)) as U1.
  pose proof (put_int_ok _ _ Hb2) as (L2 & _). pose proof (put_int_unsigned _ _ Hb2 ltac:(lia)) as U2.
  assert (NE : X <> []) by (unfold X; destruct h; [discriminate Lh|discriminate]).
  rewrite read_dictionary_nonempty by exact NE.
  pose proof (Rh (gb ++ b1 ++ array ++ b2 ++ wids)) as RH. fold X in RH. rewrite RH. cbn [bind h_version].
  assert (V1 : is_dictionary (version_of k) = true) by (unfold version_of; destruct k; reflexivity).
  assert (V2 : has_grammar (version_of k) = true) by (unfold version_of; destruct k; reflexivity).
  rewrite V1, V2. cbn [negb].
  destruct (RG (b1 ++ array ++ b2 ++ wids) 0%nat ltac:(lia)) as (g & Eg & G1 & G2 & G3 & G4). rewrite Lh in Eg. fold X in Eg. rewrite Eg. cbn [bind]. rewrite G2.
  set (o := (HEADER_SIZE + length gb)%nat).
  assert (Eo : o = length (h ++ gb)) by (rewrite app_length; unfold o; lia).
  assert (A0 : At X o (b1 ++ array ++ b2 ++ wids)).
  { exists (h ++ gb), []. unfold X. rewrite app_nil_r, <- app_assoc. auto. }
  apply At_app in A0 as [A1 A0]. apply At_app in A0 as [A2 A0]. apply At_app in A0 as [A3 A5].
  rewrite L1 in *. rewrite L2 in *.
  assert (E4 : (4 * (length array / 4))%nat = length array) by (pose proof (Nat.div_mod (length array) 4 ltac:(lia)); lia).
  pose proof (At_length _ _ _ A5) as LD.
  unfold read_lexicon. rewrite prun_bind. unfold pseek. rewrite prun_seek by lia. cbn [prun]. rewrite Nat2Z.id.
  rewrite prun_bind. unfold pread. rewrite (prun_read _ _ b1) by auto. cbn [prun]. rewrite U1, Nat2Z.id, E4.
  rewrite prun_bind. unfold psub. cbn [prun]. rewrite (At_slice _ _ _ A2).
  rewrite prun_bind. unfold read_wid_table. rewrite prun_bind. unfold pseek. rewrite prun_seek by lia. cbn [prun]. rewrite Nat2Z.id.
  rewrite prun_bind. unfold pread. rewrite (prun_read _ _ b2) by auto. cbn [prun]. rewrite U2, Nat2Z.id.
  rewrite prun_bind. unfold psub. cbn [prun]. rewrite (At_slice _ _ _ A5).
  rewrite prun_bind.
  assert (LX : length X = (o + 4 + length array + 4 + length wids)%nat) by (unfold X; rewrite !app_length, L1, L2; unfold o; lia).
  assert (P0 := read_params_ok X [] [0; 0; 0; 0] [] [] X (o + 4 + length array + 4) eq_refl eq_refl). cbn [app] in P0. rewrite app_nil_r in P0.
  rewrite LX in P0. rewrite P0; [|reflexivity|reflexivity|lia]. cbn [prun snd bind].
  eexists _, g. split; [reflexivity|]. cbn [d_grammar d_lexicon lx_trie lx_wids]. split; [reflexivity|]. split.
  { unfold params_at. cbn [d_grammar d_lexicon lx_trie lx_wids storage]. rewrite LX, G2. unfold o. lia. }
  split; [reflexivity|]. split; [reflexivity|]. split; [exact G1|exact G4].
Qed.
End core.

(** A file that is a proper beginning of such a file does not open. *)
Lemma short_fails Z z d c : read_dictionary Z = Ok z -> params_at z = length Z -> Z = d ++ c -> c <> [] -> exists e, read_dictionary d = Err e.
Proof.
  intros O P -> N. destruct (C72_cut_partial _ _ (length d) O) as (e & E).
  - fold (storage (d_grammar z)). fold (params_at z). rewrite P, app_length. destruct c; [congruence|]. cbn [length]. lia.
  - rewrite firstn_app, firstn_all, Nat.sub_diag, firstn_O, app_nil_r in E. eauto.
Qed.
(** Two beginnings of one list *)
Lemma beginnings {A} (a b c d : list A) : a ++ b = c ++ d -> (exists e, a = c ++ e) \/ (exists e, e <> [] /\ c = a ++ e).
Proof.
  revert c. induction a as [|x a IH]; intros c H.
  - destruct c as [|y c]; [left; exists []; reflexivity|]. right. exists (y :: c). split; [discriminate|reflexivity].
  - destruct c as [|y c]; [left; exists (x :: a); reflexivity|]. cbn [app] in H. assert (E1 : x = y) by congruence. assert (E2 : a ++ b = c ++ d) by congruence. subst y.
    destruct (IH _ E2) as [(e & ->)|(e & Ne & ->)]; [left; exists e; reflexivity|right; exists e; auto].
Qed.
Lemma cut_puts_file puts ops' : Forall is_put puts -> cut puts ops' -> exists c, payload puts = f_data (replay ops') ++ c.
Proof. intros P C. destruct (cut_puts _ _ C P) as (P' & c & E). exists c. unfold replay. rewrite replay_puts by auto. exact E. Qed.
Lemma grammar_none h table pt : convert_postable table = Ok pt ->
  write_grammar table None (File h (length h)) = Ok (File (h ++ pt ++ [0; 0; 0; 0]) (length (h ++ pt ++ [0; 0; 0; 0]))).
Proof.
  intros H. unfold write_grammar. rewrite H. cbn [bind]. rewrite f_write_end by reflexivity.
  change (put_short 0) with (@Ok bytes [0; 0]). cbn [bind]. rewrite f_write_end by reflexivity. cbn [f_data app]. now rewrite <- app_assoc.
Qed.
(** The operations for the grammar *)
Lemma grammar_shape table ms p ops q r : emit_grammar table ms p = (ops, q, r) ->
  (ops = [] /\ exists e, r = Err e) \/
  exists pt, convert_postable table = Ok pt /\
    ((ops = [Put pt] /\ exists e, r = Err e) \/
     exists gb ms', r = Ok tt /\ Forall is_put ops /\ payload ops = gb /\ q = (p + length gb)%nat /\ match ms with None => ms' = None | Some rm => exists m, rm = Ok m /\ ms' = Some m end /\
       forall h, write_grammar table ms' (File h (length h)) = Ok (File (h ++ gb) (length (h ++ gb)))).
Proof.
  unfold emit_grammar. rewrite w_bind_lift. destruct (convert_postable table) as [pt|e] eqn:E; [|intros [= <- _ <-]; left; split; [reflexivity|eauto]].
  intros H. right. exists pt. split; [reflexivity|]. rewrite w_bind_put in H. destruct ms as [rm|].
  - rewrite w_bind_lift in H. destruct rm as [m|e]; cbn [bind] in H; [|injection H as <- _ <-; left; split; [reflexivity|eauto]].
    destruct (convert_matrix m) as [[hd cells]|e] eqn:Ec; [|injection H as <- _ <-; left; split; [reflexivity|eauto]].
    rewrite w_bind_put in H. cbn in H. injection H as <- <- <-. right. exists (pt ++ hd ++ cells), (Some m). split; [reflexivity|]. split; [repeat constructor|].
    split; [unfold payload; cbn; now rewrite app_nil_r|]. split; [rewrite !app_length; lia|]. split; [eauto|]. intros h. unfold write_grammar. rewrite E. cbn [bind]. rewrite Ec. cbn [bind].
    rewrite (f_write_end (File h _)) by reflexivity. rewrite (f_write_end (File _ _)) by reflexivity. rewrite f_write_end by reflexivity. cbn [f_data]. now rewrite <- !app_assoc.
  - cbn in H. injection H as <- <- <-. right. exists (pt ++ [0; 0; 0; 0]), None. split; [reflexivity|]. split; [repeat constructor|]. split; [reflexivity|]. split; [rewrite app_length; cbn; lia|]. split; [reflexivity|].
    intros h. now apply grammar_none.
Qed.
