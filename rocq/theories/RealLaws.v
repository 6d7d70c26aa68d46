(** * RealLaws: the executable primitives satisfy everything the theorems assume of primitives. *)
From Verif Require Import Bytes Prims ConcreteSym CurveAsym CurveLemmas CurveGroup CurveGroup384.

Theorem real_laws : Laws Real.
Proof. constructor; [exact real_sizes|exact curve_ed_laws|exact curve_p384_laws]. Qed.
Print Assumptions real_laws.
