(** Cargo.toml:12-16, the two features of the crate, and what Cargo makes of several crates that depend on it.
    Simplification: one version of the crate in the build (Cargo resolves all semver-compatible requests to one copy). *)
From Coq Require Import List Bool.
From Verif Require Import Interface Model_Cfg.
Import ListNotations.

(* Cargo.toml:14 [nightly = \[\]], Cargo.toml:16 [constant-time = \[\]]; no [default] entry: nothing is on unless asked for. *)
Record features : Type := Features { f_nightly : bool; f_ct : bool }.
(* Cargo.toml:12-16: neither feature implies another one; a crate that asks for nothing gets none. *)
Definition no_features : features := Features false false.
Definition unite (f g : features) : features := Features (f_nightly f || f_nightly g) (f_ct f || f_ct g).
(* What Cargo compiles for all its dependents: the crate once, with the union of the features of Cargo.toml:12-16 they ask for. *)
Definition unified (fs : list features) : features := fold_right unite no_features fs.
(* lib.rs:44-121, 333-347 [feature = "nightly"], [feature = "constant-time"]: the configuration of target [t] with features [f]. *)
Definition with_features (f : features) (t : cfg) : cfg :=
  let 'Cfg a be _ _ s ae v x v8 e d g := t in Cfg a be (f_nightly f) (f_ct f) s ae v x v8 e d g.
(* The build of the crate for target [t] with the features [f] of Cargo.toml:12-16. *)
Definition build (t : cfg) (f : features) : option impl := impl_of (with_features f t).
