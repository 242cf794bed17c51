(** SPECIFICATION for C45: counting what an observer sees of look-ups in constant tables. *)
From Coq Require Import List.
From Verif Require Import Word Fips197 Spec_Leak.
Open Scope N_scope.
Open Scope list_scope.

Definition is_lookup (e : event) : bool := match e with Lookup _ _ => true | _ => false end.
Definition lookups (t : list event) : nat := length (filter is_lookup t).
(** SubWord in key set-up (FIPS-197, 5.2): once for every group of Nk words, twice with Nk = 8. *)
Definition subwords (k : key_size) : nat := match k with K128 => 10 | K192 => 8 | K256 => 13 end.
(** Every entry looked up is one of the first [n] of its table. *)
Definition lookups_below (n : N) (t : list event) : Prop := forall name i, In (Lookup name i) t -> i < n.
