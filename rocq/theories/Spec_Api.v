(** SPECIFICATION.  What the documentation of the block API promises, in terms of [Fips197]. *)
From Verif Require Import Word Fips197.
Open Scope N_scope.

(** "Performs one round of AES encryption function (ShiftRows->SubBytes->MixColumns->AddRoundKey)". *)
Definition spec_enc (s k : list N) : list N := add_round_key (mix_columns (sub_bytes (shift_rows s))) k.
(** "... without MixColumns". *)
Definition spec_enc_last (s k : list N) : list N := add_round_key (sub_bytes (shift_rows s)) k.
(** "InvShiftRows->InvSubBytes->InvMixColumns->AddRoundKey". *)
Definition spec_dec (s k : list N) : list N := add_round_key (inv_mix_columns (inv_sub_bytes (inv_shift_rows s))) k.
Definition spec_dec_last (s k : list N) : list N := add_round_key (inv_sub_bytes (inv_shift_rows s)) k.

(** The 16-byte lanes of an [m]-block value, and a block operation applied lane by lane. *)
Definition lanes (m : nat) (x : list N) : list (list N) := chunks 16 m x.
Definition on_lanes (m : nat) (g : list N -> list N -> list N) (a b : list N) : list N :=
  concat (map2 g (lanes m a) (lanes m b)).
