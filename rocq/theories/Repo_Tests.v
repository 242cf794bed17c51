(** The project's own tests (Model_Suite), run on the model (tests, not proofs): the model passes
    them in every configuration the theorems cover, and fails them exactly where C30 and C31 are refuted. That this is so
    for every configuration is C55 (Props_Ci.v). *)
From Verif Require Import Word Interface Spec_Cfg Model_Cfg Model_Suite.
Open Scope N_scope.

Definition test_results (c : cfg) : option (list bool) := match impl_of c with Some i => Some (results i) | None => None end.

(** Run when this file is compiled; the build fails if a result differs.  They are tests, so nothing is kept of them
    (an independent checker without a virtual machine would need hours to replay them). *)
Goal map test_results [c_soft; c_soft_be; c_ct_le; c_x86; c_vaes256; c_vaes512; c_neon; c_arm32; c_rv64] =
  repeat (Some [true; true; true; true; true; true; true]) 9.
Proof. vm_compute. reflexivity. Abort.
Goal test_results c_rv32 = Some [false; false; false; false; false; false; false].
Proof. vm_compute. reflexivity. Abort.
Goal test_results c_ct_be = Some [true; false; false; false; false; false; false].
Proof. vm_compute. reflexivity. Abort.
Goal map bitslice_results [c_ct_le; c_ct_be; c_soft] = [[true; true]; [true; true]; []].
Proof. vm_compute. reflexivity. Abort.
