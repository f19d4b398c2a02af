(** The expectations of tests/plugin/test_numericparser.py, computed on the model. *)
From Coq Require Import List ZArith.
From Verif Require Import Base M_NumericParser.
Import ListNotations.
Open Scope Z_scope.

(** tests/plugin/test_numericparser.py:161-165 *)
Definition parse (s : text) : bool * parser :=
  let '(ok, p) := p_feed p_new s in if ok then p_done p else (false, p).
Definition normalized (s : text) : option text :=
  let '(ok, p) := parse s in
  if ok then match p_normalized p with Ok (t, _) => Some t | Err _ => None end else None.

(* line 26: 1000 *)
Example t26 : normalized [49; 48; 48; 48] = Some [49; 48; 48; 48].
Proof. vm_compute. reflexivity. Qed.
(* line 31: 001000 *)
Example t31 : normalized [48; 48; 49; 48; 48; 48] = Some [48; 48; 49; 48; 48; 48].
Proof. vm_compute. reflexivity. Qed.
(* line 35: 〇一〇〇〇 *)
Example t35 : normalized [12295; 19968; 12295; 12295; 12295] = Some [48; 49; 48; 48; 48].
Proof. vm_compute. reflexivity. Qed.
(* line 39: 00.1000 *)
Example t39 : normalized [48; 48; 46; 49; 48; 48; 48] = Some [48; 48; 46; 49].
Proof. vm_compute. reflexivity. Qed.
(* line 43: 000 *)
Example t43 : normalized [48; 48; 48] = Some [48; 48; 48].
Proof. vm_compute. reflexivity. Qed.
(* line 48: 二十七 *)
Example t48 : normalized [20108; 21313; 19971] = Some [50; 55].
Proof. vm_compute. reflexivity. Qed.
(* line 52: 千三百二十七 *)
Example t52 : normalized [21315; 19977; 30334; 20108; 21313; 19971] = Some [49; 51; 50; 55].
Proof. vm_compute. reflexivity. Qed.
(* line 56: 千十七 *)
Example t56 : normalized [21315; 21313; 19971] = Some [49; 48; 49; 55].
Proof. vm_compute. reflexivity. Qed.
(* line 60: 千三百二十七.〇五 *)
Example t60 : normalized [21315; 19977; 30334; 20108; 21313; 19971; 46; 12295; 20116] = Some [49; 51; 50; 55; 46; 48; 53].
Proof. vm_compute. reflexivity. Qed.
(* line 64: 三百二十百 *)
Example t64 : fst (parse [19977; 30334; 20108; 21313; 30334]) = false.
Proof. vm_compute. reflexivity. Qed.
(* line 68: 1万 *)
Example t68 : normalized [49; 19975] = Some [49; 48; 48; 48; 48].
Proof. vm_compute. reflexivity. Qed.
(* line 72: 千三百二十七万 *)
Example t72 : normalized [21315; 19977; 30334; 20108; 21313; 19971; 19975] = Some [49; 51; 50; 55; 48; 48; 48; 48].
Proof. vm_compute. reflexivity. Qed.
(* line 76: 千三百二十七万一四 *)
Example t76 : normalized [21315; 19977; 30334; 20108; 21313; 19971; 19975; 19968; 22235] = Some [49; 51; 50; 55; 48; 48; 49; 52].
Proof. vm_compute. reflexivity. Qed.
(* line 80: 千三百二十七万一四.〇五 *)
Example t80 : normalized [21315; 19977; 30334; 20108; 21313; 19971; 19975; 19968; 22235; 46; 12295; 20116] = Some [49; 51; 50; 55; 48; 48; 49; 52; 46; 48; 53].
Proof. vm_compute. reflexivity. Qed.
(* line 84: 三兆2千億千三百二十七万一四.〇五 *)
Example t84 : normalized [19977; 20806; 50; 21315; 20740; 21315; 19977; 30334; 20108; 21313; 19971; 19975; 19968; 22235; 46; 12295; 20116] = Some [51; 50; 48; 48; 48; 49; 51; 50; 55; 48; 48; 49; 52; 46; 48; 53].
Proof. vm_compute. reflexivity. Qed.
(* line 88: 億万 *)
Example t88 : fst (parse [20740; 19975]) = false.
Proof. vm_compute. reflexivity. Qed.
(* line 92: 1.5千 *)
Example t92 : normalized [49; 46; 53; 21315] = Some [49; 53; 48; 48].
Proof. vm_compute. reflexivity. Qed.
(* line 96: 1.5百万 *)
Example t96 : normalized [49; 46; 53; 30334; 19975] = Some [49; 53; 48; 48; 48; 48; 48].
Proof. vm_compute. reflexivity. Qed.
(* line 100: 1.5百万1.5千20 *)
Example t100 : normalized [49; 46; 53; 30334; 19975; 49; 46; 53; 21315; 50; 48] = Some [49; 53; 48; 49; 53; 50; 48].
Proof. vm_compute. reflexivity. Qed.
(* line 104: 1.5千5百 *)
Example t104 : fst (parse [49; 46; 53; 21315; 53; 30334]) = false.
Proof. vm_compute. reflexivity. Qed.
(* line 107: 1.5千500 *)
Example t107 : fst (parse [49; 46; 53; 21315; 53; 48; 48]) = false.
Proof. vm_compute. reflexivity. Qed.
(* line 111: 200000000000000000000万 *)
Example t111 : normalized [50; 48; 48; 48; 48; 48; 48; 48; 48; 48; 48; 48; 48; 48; 48; 48; 48; 48; 48; 48; 48; 19975] = Some [50; 48; 48; 48; 48; 48; 48; 48; 48; 48; 48; 48; 48; 48; 48; 48; 48; 48; 48; 48; 48; 48; 48; 48; 48].
Proof. vm_compute. reflexivity. Qed.
(* line 116: 2,000,000 *)
Example t116 : normalized [50; 44; 48; 48; 48; 44; 48; 48; 48] = Some [50; 48; 48; 48; 48; 48; 48].
Proof. vm_compute. reflexivity. Qed.
(* line 120: 259万2,300 *)
Example t120 : normalized [50; 53; 57; 19975; 50; 44; 51; 48; 48] = Some [50; 53; 57; 50; 51; 48; 48].
Proof. vm_compute. reflexivity. Qed.
(* line 124: 200,00,000 *)
Example t124 : fst (parse [50; 48; 48; 44; 48; 48; 44; 48; 48; 48]) = false.
Proof. vm_compute. reflexivity. Qed.
Example t125 : p_error (snd (parse [50; 48; 48; 44; 48; 48; 44; 48; 48; 48])) = PComma.
Proof. vm_compute. reflexivity. Qed.
(* line 128: 2,4 *)
Example t128 : fst (parse [50; 44; 52]) = false.
Proof. vm_compute. reflexivity. Qed.
Example t129 : p_error (snd (parse [50; 44; 52])) = PComma.
Proof. vm_compute. reflexivity. Qed.
(* line 132: 000,000 *)
Example t132 : fst (parse [48; 48; 48; 44; 48; 48; 48]) = false.
Proof. vm_compute. reflexivity. Qed.
Example t133 : p_error (snd (parse [48; 48; 48; 44; 48; 48; 48])) = PComma.
Proof. vm_compute. reflexivity. Qed.
(* line 136: ,000 *)
Example t136 : fst (parse [44; 48; 48; 48]) = false.
Proof. vm_compute. reflexivity. Qed.
Example t137 : p_error (snd (parse [44; 48; 48; 48])) = PComma.
Proof. vm_compute. reflexivity. Qed.
(* line 140: 256,55.1 *)
Example t140 : fst (parse [50; 53; 54; 44; 53; 53; 46; 49]) = false.
Proof. vm_compute. reflexivity. Qed.
Example t141 : p_error (snd (parse [50; 53; 54; 44; 53; 53; 46; 49])) = PComma.
Proof. vm_compute. reflexivity. Qed.
(* line 145: @@@ *)
Example t145 : fst (parse [64; 64; 64]) = false.
Proof. vm_compute. reflexivity. Qed.
(* line 149: 6.0 *)
Example t149 : normalized [54; 46; 48] = Some [54].
Proof. vm_compute. reflexivity. Qed.
(* line 153: 6. *)
Example t153 : fst (parse [54; 46]) = false.
Proof. vm_compute. reflexivity. Qed.
Example t154 : p_error (snd (parse [54; 46])) = PPoint.
Proof. vm_compute. reflexivity. Qed.
(* line 157: 1.2.3 *)
Example t157 : fst (parse [49; 46; 50; 46; 51]) = false.
Proof. vm_compute. reflexivity. Qed.
Example t158 : p_error (snd (parse [49; 46; 50; 46; 51])) = PPoint.
Proof. vm_compute. reflexivity. Qed.
