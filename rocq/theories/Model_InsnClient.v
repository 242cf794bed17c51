(** The calls of Model_LeakClient.v with the special instructions they execute, and the calls that format a value as well: those read the
    bytes and hand numbers to core::fmt (lib.rs:215-277, derived Debug at lib.rs:430, 445), which uses no special instruction; the text is
    that of Spec_Fmt.v (C23, C24, C54).  core::fmt itself is not modelled here. *)
From Coq Require Import List.
From Verif Require Import Word Interface Fips197 Spec_Api Spec_User Spec_Cfg Spec_Client Spec_ClientActual Spec_Leak Spec_LeakClient Spec_Insn Spec_Cost Model_Leak Model_LeakBlock Model_Running Model_LeakClient.
Open Scope list_scope.

(* The bytes of a value, u128::from / <[u8; 16]>::from (lib.rs:142-154) of each block. *)
Definition bytes_of (p : promised) (be : bool) (v : tvalue) : avalue :=
  match v with
  | TBlock g b => ABlock g b
  | TEnc k rk => AEnc k (map (to_ne (block_be p be) 16) rk)
  | TDec k rk => ADec k (map (to_ne (block_be p be) 16) rk)
  end.
(* lib.rs:127-516 and the block functions of the selected modules; formatting: lib.rs:215-277, derive(Debug) at lib.rs:430, 445. *)
Definition instructed (p : promised) (be : bool) (vars : list tvalue) (c : call) : option (answer * list tvalue * list insn) :=
  if formats c then option_map (fun r => (fst r, vars, [])) (library standard (map (bytes_of p be) vars) c)
  else timed_with executed p be vars c.
