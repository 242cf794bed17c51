(** SPECIFICATION for C39: what designers of other AES-based constructions use. *)
From Coq Require Import Arith.
From Verif Require Import Word.
Open Scope N_scope.

(** The positions at which two byte strings of length n differ. *)
Definition differing (n : nat) (a b : list N) : list nat := filter (fun j => negb (N.eqb (nth j a 0) (nth j b 0))) (seq 0 n).
(** The four positions of column c of the AES state. *)
Definition column (c : nat) : list nat := [4 * c; 4 * c + 1; 4 * c + 2; 4 * c + 3]%nat.
