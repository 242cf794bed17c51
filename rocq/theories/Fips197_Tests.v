(** Known-answer tests of the specification against FIPS 197 appendices (tests, not proofs). *)
From Verif Require Import Word Fips197.
Open Scope N_scope.

Definition hex128 (x : N) : list N := to_be 16 x.

(* FIPS 197 Appendix B *)
Example fips_appendix_b :
  aes_encrypt K128 (hex128 0x2b7e151628aed2a6abf7158809cf4f3c) (hex128 0x3243f6a8885a308d313198a2e0370734)
  = hex128 0x3925841d02dc09fbdc118597196a0b32.
Proof. vm_compute. reflexivity. Qed.

(* FIPS 197 (2001) Appendix C.1 - C.3 *)
Example fips_c1 :
  aes_encrypt K128 (hex128 0x000102030405060708090a0b0c0d0e0f) (hex128 0x00112233445566778899aabbccddeeff)
  = hex128 0x69c4e0d86a7b0430d8cdb78070b4c55a.
Proof. vm_compute. reflexivity. Qed.
Example fips_c2 :
  aes_encrypt K192 (to_be 24 0x000102030405060708090a0b0c0d0e0f1011121314151617) (hex128 0x00112233445566778899aabbccddeeff)
  = hex128 0xdda97ca4864cdfe06eaf70a0ec0d7191.
Proof. vm_compute. reflexivity. Qed.
Example fips_c3 :
  aes_encrypt K256 (to_be 32 0x000102030405060708090a0b0c0d0e0f101112131415161718191a1b1c1d1e1f) (hex128 0x00112233445566778899aabbccddeeff)
  = hex128 0x8ea2b7ca516745bfeafc49904b496089.
Proof. vm_compute. reflexivity. Qed.
Example fips_c3_inv :
  aes_decrypt K256 (to_be 32 0x000102030405060708090a0b0c0d0e0f101112131415161718191a1b1c1d1e1f) (hex128 0x8ea2b7ca516745bfeafc49904b496089)
  = hex128 0x00112233445566778899aabbccddeeff.
Proof. vm_compute. reflexivity. Qed.
