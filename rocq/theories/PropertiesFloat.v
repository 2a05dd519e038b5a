(** Theorems about the float64 computation of the time step (C42). *)
From Coq Require Import ZArith NArith Lia.
From Verif Require Import GoTime Types Mfa Float.
Open Scope Z_scope.

Theorem C42_exact unix period : 0 <= unix < 2 ^ 53 -> 1 <= period < 2 ^ 53 -> float_step unix period = unix / period.
Proof. exact (float_step_exact unix period). Qed.
Print Assumptions C42_exact.
(** So the step of the model is the one the code computes. *)
Theorem C42_step t period : 0 <= unix t < 2 ^ 53 -> 1 <= period < 2 ^ 53 -> Z.of_N (step t period) = float_step (unix t) period.
Proof.
  intros Ht Hp. rewrite float_step_exact by assumption. unfold step.
  assert (K : 0 <= unix t / period <= unix t). { split; [apply Z.div_pos; lia|]. apply Z.div_le_upper_bound; nia. }
  rewrite Z.mod_small by lia. lia.
Qed.
Print Assumptions C42_step.
(** Beyond that range it is not exact. *)
Theorem C42_bound_needed : exists n d, 2 ^ 53 <= n /\ 1 <= d < 2 ^ 53 /\ float_step n d <> n / d.
Proof. exists (2 ^ 54 - 1), 1. split; [lia|]. split; [lia|]. vm_compute. discriminate. Qed.
Print Assumptions C42_bound_needed.
Example C42_ex : 0 <= 1640403200 < 2 ^ 53 /\ 1 <= 30 < 2 ^ 53 /\ float_step 1640403200 30 = 54680106.
Proof. split; [lia|]. split; [lia|]. vm_compute. reflexivity. Qed.
