(** What the builder writes are bytes. *)
From Coq Require Import List ZArith Lia Bool Arith.
From Verif Require Import Base Utf8 M_Builder M_Lattice M_Bytes P_Bytes M_DicReader M_DicBuilder.
Import ListNotations.
Open Scope Z_scope.

Definition all_bytes (b : bytes) : Prop := Forall (fun x => 0 <= x < 256) b.
Lemma ab_app a b : all_bytes a -> all_bytes b -> all_bytes (a ++ b).
Proof. intros A B. apply Forall_app. auto. Qed.
Lemma ab_to_bytes n s z b : to_bytes n s z = Ok b -> all_bytes b.
Proof. unfold to_bytes. destruct (if s then _ else _); [|discriminate]. intros [= <-]. apply le_byte. Qed.
Lemma ab_byte z b : put_byte z = Ok b -> all_bytes b. Proof. apply ab_to_bytes. Qed.
Lemma ab_short z b : put_short z = Ok b -> all_bytes b. Proof. apply ab_to_bytes. Qed.
Lemma ab_int z b : put_int z = Ok b -> all_bytes b. Proof. apply ab_to_bytes. Qed.
Lemma ab_firstn n b : all_bytes b -> all_bytes (firstn n b).
Proof. unfold all_bytes. rewrite !Forall_forall. intros H x Hx. apply H. rewrite <- (firstn_skipn n b). apply in_or_app; auto. Qed.
Lemma ab_skipn n b : all_bytes b -> all_bytes (skipn n b).
Proof. unfold all_bytes. rewrite !Forall_forall. intros H x Hx. apply H. rewrite <- (firstn_skipn n b). apply in_or_app; auto. Qed.
Lemma ab_zeros n : all_bytes (repeat 0 n).
Proof. induction n; constructor; [lia|auto]. Qed.
Lemma ab_write f b : all_bytes (f_data f) -> all_bytes b -> all_bytes (f_data (f_write f b)).
Proof.
  intros F B. destruct b as [|x b]; [exact F|]. unfold f_write. cbn [f_data]. apply ab_app; [now apply ab_firstn|]. apply ab_app; [apply ab_zeros|]. apply ab_app; [exact B|now apply ab_skipn].
Qed.
Lemma ab_length n b : put_length n = Ok b -> all_bytes b.
Proof.
  unfold put_length. destruct (n <=? 127); intros E; [now apply ab_byte in E|]. apply bind_ok in E as (x & Ex & E). apply bind_ok in E as (y & Ey & E).
  assert (b = x ++ y) as -> by congruence. apply ab_app; eapply ab_byte; eassumption.
Qed.
Lemma ab_utf16 t : forall b, utf16 t = Ok b -> all_bytes b.
Proof.
  induction t as [|c t IH]; intros b E; cbn [utf16] in E; [assert (b = []) as -> by congruence; constructor|]. destruct (is_scalar c); [|discriminate].
  apply bind_ok in E as (x & Ex & E). assert (b = concat (map (le 2) (units_cp c)) ++ x) as -> by congruence. apply ab_app; [|auto].
  clear. induction (units_cp c) as [|u l IH]; [constructor|]. cbn [map concat]. apply ab_app; [apply le_byte|exact IH].
Qed.
Lemma ab_string t b : put_string t = Ok b -> all_bytes b.
Proof.
  unfold put_string. intros E. apply bind_ok in E as (x & Ex & E). apply bind_ok in E as (y & Ey & E). assert (b = x ++ y) as -> by congruence.
  apply ab_app; [eapply ab_length; exact Ex|eapply ab_utf16; exact Ey].
Qed.
Lemma ab_all {A} (f : A -> res bytes) l : (forall x b, f x = Ok b -> all_bytes b) -> forall b, put_all f l = Ok b -> all_bytes b.
Proof.
  intros F. induction l as [|x l IH]; intros b E; cbn [put_all] in E; [assert (b = []) as -> by congruence; constructor|].
  apply bind_ok in E as (y & Ey & E). apply bind_ok in E as (z & Ez & E). assert (b = y ++ z) as -> by congruence. apply ab_app; eauto.
Qed.
Lemma ab_array l b : put_int_array l = Ok b -> all_bytes b.
Proof.
  unfold put_int_array. intros E. apply bind_ok in E as (x & Ex & E). apply bind_ok in E as (y & Ey & E). assert (b = x ++ y) as -> by congruence.
  apply ab_app; [eapply ab_byte; exact Ex|eapply ab_all; [|exact Ey]; intros ? ?; apply ab_int].
Qed.

Section files.
Variable k : kind.
Variable py_int : text -> res Z.
Variable is_digit : Z -> bool.
Variable trie_array : list (bytes * Z) -> res bytes.
Variable keys_ok : list (bytes * Z) -> Prop.
Hypothesis trie_bytes : forall kvs a, keys_ok kvs -> trie_array kvs = Ok a -> all_bytes a.

Lemma ab_postable table b : convert_postable table = Ok b -> all_bytes b.
Proof.
  unfold convert_postable. intros E. apply bind_ok in E as (x & Ex & E). apply bind_ok in E as (y & Ey & E). assert (b = x ++ y) as -> by congruence.
  apply ab_app; [eapply ab_short; exact Ex|eapply ab_all; [|exact Ey]]. intros p c E'. eapply ab_all; [|exact E']. intros ? ?. apply ab_string.
Qed.
Lemma ab_lines l lines : forall m m', all_bytes (f_data m) -> foldM (matrix_line l) m lines = Ok m' -> all_bytes (f_data m').
Proof.
  induction lines as [|line lines IH]; intros m m' A E; cbn [foldM] in E; [assert (m' = m) as -> by congruence; exact A|]. apply bind_ok in E as (m1 & E1 & E).
  eapply IH; [|exact E]. clear E IH. unfold matrix_line in E1. destruct line as [|a [|b [|c [|]]]]; try (cbn [length Nat.ltb Nat.leb] in E1; (discriminate || (assert (m1 = m) as -> by congruence; exact A))).
  cbv zeta in E1. destruct (_ <? 0); [discriminate|]. apply bind_ok in E1 as (x & Ex & E1). match type of E1 with Ok ?y = _ => assert (m1 = y) as -> by congruence end. cbn [f_seek f_data].
  apply ab_write; [exact A|eapply ab_short; exact Ex].
Qed.
Lemma ab_matrix ms h m : convert_matrix ms = Ok (h, m) -> all_bytes h /\ all_bytes m.
Proof.
  unfold convert_matrix. destruct (ms_header ms) as [|l [|r [|]]]; try discriminate. intros E. apply bind_ok in E as (x & Ex & E). apply bind_ok in E as (y & Ey & E). apply bind_ok in E as (f & Ef & E).
  assert (h = x ++ y) as -> by congruence. assert (m = f_data f) as -> by congruence. split; [apply ab_app; eapply ab_short; eassumption|]. eapply ab_lines; [|exact Ef]. constructor.
Qed.
Lemma ab_grammar table ms out f : all_bytes (f_data out) -> write_grammar table ms out = Ok f -> all_bytes (f_data f).
Proof.
  intros A E. unfold write_grammar in E. apply bind_ok in E as (x & Ex & E). apply ab_postable in Ex. destruct ms as [ms|].
  - apply bind_ok in E as ((h & m) & Em & E). apply ab_matrix in Em as [Eh Em]. match type of E with Ok ?y = _ => assert (f = y) as -> by congruence end. auto using ab_write.
  - apply bind_ok in E as (y & Ey & E). apply bind_ok in E as (z & Ez & E). match type of E with Ok ?y = _ => assert (f = y) as -> by congruence end.
    apply ab_write; [auto using ab_write|]. apply ab_app; eapply ab_short; eassumption.
Qed.
Lemma ab_word_info entries table e b table' : put_word_info k py_int is_digit entries table e = Ok (b, table') -> all_bytes b.
Proof.
  unfold put_word_info. intros Ew. apply bind_ok in Ew as (b1 & E1 & Ew). apply bind_ok in Ew as (b2 & E2 & Ew). apply bind_ok in Ew as (b3 & E3 & Ew).
  apply bind_ok in Ew as (b4 & E4 & Ew). apply bind_ok in Ew as (b5 & E5 & Ew). apply bind_ok in Ew as (b6 & E6 & Ew).
  apply bind_ok in Ew as ((u1 & v1) & _ & Ew). apply bind_ok in Ew as (b7 & E7 & Ew). apply bind_ok in Ew as ((u2 & v2) & _ & Ew). apply bind_ok in Ew as (b8 & E8 & Ew).
  apply bind_ok in Ew as ((u3 & v3) & _ & Ew). apply bind_ok in Ew as (b9 & E9 & Ew). apply bind_ok in Ew as (b10 & E10 & Ew).
  apply ab_string in E1, E4, E6. apply ab_length in E2. apply ab_short in E3. apply ab_int in E5. apply ab_array in E7, E8, E9, E10.
  match type of Ew with Ok (?x, _) = _ => assert (b = x) as -> by congruence end. repeat apply ab_app; assumption.
Qed.
Lemma ab_infos entries l : forall table out out' os, all_bytes (f_data out) -> write_infos k py_int is_digit entries table out l = Ok (out', os) -> all_bytes (f_data out') /\ all_bytes os.
Proof.
  induction l as [|e l IH]; intros table out out' os A E; cbn [write_infos] in E.
  - assert (out' = out) as -> by congruence. assert (os = []) as -> by congruence. split; [exact A|constructor].
  - apply bind_ok in E as (o & Eo & E). apply bind_ok in E as ((b & t') & Eb & E). apply bind_ok in E as ((o2 & os2) & E2 & E).
    assert (out' = o2) as -> by congruence. assert (os = o ++ os2) as -> by congruence. apply ab_word_info in Eb. destruct (IH _ _ _ _ (ab_write _ _ A Eb) E2) as [X Y].
    split; [exact X|]. apply ab_app; [eapply ab_int; exact Eo|exact Y].
Qed.
Lemma ab_wids keys : forall pos kvs t, wid_table pos keys = Ok (kvs, t) -> all_bytes t.
Proof.
  induction keys as [|(key, ws) keys IH]; intros pos kvs t E; cbn [wid_table] in E; [assert (t = []) as -> by congruence; constructor|].
  apply bind_ok in E as (x & Ex & E). apply bind_ok in E as (y & Ey & E). apply bind_ok in E as ((kv & u) & Eu & E). assert (t = x ++ y ++ u) as -> by congruence.
  apply ab_app; [eapply ab_byte; exact Ex|]. apply ab_app; [eapply ab_all; [|exact Ey]; intros ? ?; apply ab_int|eauto].
Qed.
Lemma ab_lexicon s out f : (forall kvs t, wid_table 0 (s_keys s) = Ok (kvs, t) -> keys_ok kvs) ->
  all_bytes (f_data out) -> write_lexicon k py_int is_digit trie_array s out = Ok f -> all_bytes (f_data f).
Proof.
  intros KO A E. unfold write_lexicon in E. apply bind_ok in E as ((kvs & t) & Ew & E). apply bind_ok in E as (a & Ea & E). apply bind_ok in E as (b1 & E1 & E).
  apply bind_ok in E as (b2 & E2 & E). apply bind_ok in E as (b3 & E3 & E). apply bind_ok in E as (ps & Ep & E). unfold write_wordinfo in E.
  apply trie_bytes in Ea; [|eauto]. apply ab_wids in Ew. apply ab_int in E1, E2, E3.
  assert (P : all_bytes ps).
  { eapply ab_all; [|exact Ep]. intros e b Eb. unfold put_params in Eb. apply bind_ok in Eb as (x & Ex & Eb). apply bind_ok in Eb as (y & Ey & Eb). apply bind_ok in Eb as (z & Ez & Eb).
    assert (b = x ++ y ++ z) as -> by congruence. apply ab_short in Ex, Ey, Ez. auto using ab_app. }
  apply bind_ok in E as ((o' & os) & E & Ef). apply ab_infos in E as [X Y].
  - match type of Ef with Ok ?y = _ => assert (f = y) as -> by congruence end. apply ab_write; [exact X|exact Y].
  - cbn [f_seek f_data]. repeat apply ab_write; try assumption. destruct (s_entries s); [constructor|]. now apply ab_app.
Qed.
End files.
Lemma ab_encode t : forall b, encode t = Ok b -> all_bytes b.
Proof.
  induction t as [|c t IH]; intros b E; cbn [encode] in E; [assert (b = []) as -> by congruence; constructor|].
  destruct (is_scalar c) eqn:S; [|discriminate]. apply bind_ok in E as (x & Ex & E). assert (b = encode_cp c ++ x) as -> by congruence. apply ab_app; [|auto].
  unfold is_scalar in S. assert (R : 0 <= c <= 1114111) by (revert S; Zbool; lia). clear - R. unfold encode_cp.
  pose proof (Z.mod_pos_bound c 64 ltac:(lia)). pose proof (Z.mod_pos_bound (c / 64) 64 ltac:(lia)). pose proof (Z.mod_pos_bound (c / 4096) 64 ltac:(lia)).
  pose proof (Z.div_mod c 64 ltac:(lia)). pose proof (Z.div_mod c 4096 ltac:(lia)). pose proof (Z.div_mod c 262144 ltac:(lia)).
  pose proof (Z.mod_pos_bound c 4096 ltac:(lia)). pose proof (Z.mod_pos_bound c 262144 ltac:(lia)).
  destruct (Z.leb_spec c 0x7F); [|destruct (Z.leb_spec c 0x7FF); [|destruct (Z.leb_spec c 0xFFFF)]]; repeat constructor; lia.
Qed.
Lemma ab_header h b : header_to_bytes h = Ok b -> all_bytes b.
Proof.
  unfold header_to_bytes. intros E. apply bind_ok in E as (v & Ev & E). apply bind_ok in E as (t & Et & E). apply bind_ok in E as (s & Es & E).
  destruct (_ <? _)%nat; [discriminate|]. cbv zeta in E. match type of E with Ok ?x = Ok _ => assert (b = x) as -> by congruence end.
  apply ab_app; [|apply ab_skipn, ab_zeros]. apply ab_app; [eapply ab_to_bytes; exact Ev|]. apply ab_app; [eapply ab_to_bytes; exact Et|eapply ab_encode; exact Es].
Qed.

Section command.
Variable k : kind.
Variable py_int : text -> res Z.
Variable is_digit : Z -> bool.
Variable trie_array : list (bytes * Z) -> res bytes.

Lemma ab_add keys key wid : all_bytes key -> Forall (fun kv => all_bytes (fst kv)) keys -> Forall (fun kv => all_bytes (fst kv)) (add_key keys key wid).
Proof.
  intros K. induction keys as [|(x, l) keys IH]; intros F; cbn [add_key]; [constructor; [exact K|constructor]|]. inversion F; subst.
  destruct (list_eqb Z.eqb key x); [constructor; assumption|]. destruct (bytes_lt key x); constructor; auto.
Qed.
Lemma ab_keys rows : forall s s', Forall (fun kv => all_bytes (fst kv)) (s_keys s) -> build_lexicon k py_int s rows = Ok s' -> Forall (fun kv => all_bytes (fst kv)) (s_keys s').
Proof.
  unfold build_lexicon. induction rows as [|r rows IH]; intros s s' F E; cbn [foldM] in E; [assert (s' = s) as -> by congruence; exact F|].
  apply bind_ok in E as (s1 & E1 & E). apply (IH s1); [|exact E]. clear E IH. unfold build_row in E1. apply bind_ok in E1 as ((e & tb) & _ & E1). apply bind_ok in E1 as (keys & Ek & E1).
  match type of E1 with Ok ?y = _ => assert (s1 = y) as -> by congruence end. cbn [s_keys]. clear E1. destruct (e_headword e) as [[|c h]|]; try (assert (keys = s_keys s) as -> by congruence; exact F).
  unfold add_to_trie in Ek. apply bind_ok in Ek as (key & Ek' & Ek). apply ab_encode in Ek'. assert (keys = add_key (s_keys s) key (length (s_entries s))) as -> by congruence. now apply ab_add.
Qed.
Lemma wid_keys keys : forall pos kvs t, wid_table pos keys = Ok (kvs, t) -> map fst kvs = map fst keys.
Proof.
  induction keys as [|(key, ws) keys IH]; intros pos kvs t E; cbn [wid_table] in E; [assert (kvs = []) as -> by congruence; reflexivity|].
  apply bind_ok in E as (x & _ & E). apply bind_ok in E as (y & _ & E). apply bind_ok in E as ((kv & u) & Eu & E). assert (kvs = (key, Z.of_nat pos) :: kv) as -> by congruence.
  cbn [map fst]. f_equal. eauto.
Qed.
(** The builder writes bytes if dartsclone does. *)
Theorem built_bytes now description rows ms d :
  (forall kvs a, Forall (fun kv => all_bytes (fst kv)) kvs -> trie_array kvs = Ok a -> all_bytes a) ->
  build_command k py_int is_digit trie_array now description rows ms = Ok d -> all_bytes d.
Proof.
  intros TA E. unfold build_command in E. apply bind_ok in E as (h & Eh & E). apply bind_ok in E as (f & Ef & E). assert (d = f_data f) as -> by congruence. clear E.
  unfold build_dictionary in Ef. apply bind_ok in Ef as (s & Es & Ef). apply bind_ok in Ef as (g & Eg & Ef). apply ab_header in Eh.
  eapply (ab_lexicon k py_int is_digit trie_array (fun kvs => Forall (fun kv => all_bytes (fst kv)) kvs) TA s g f); [|eapply ab_grammar; [|exact Eg]; apply ab_write; [constructor|exact Eh]|exact Ef].
  intros kvs t Ew. apply ab_keys in Es; [|constructor]. apply wid_keys in Ew. apply Forall_map. rewrite Ew. apply Forall_map. exact Es.
Qed.
End command.
