(** SPECIFICATION for C58: the public interface of the crate, as rustdoc lists it, and what a program can ask of it.

    A program that uses the crate compiles if every demand it makes of the crate is met: it calls functions with given argument and
    result types, perhaps in a [const]; it relies on trait implementations; it moves values between threads; it matches on constants. *)
From Coq Require Import String.
From Verif Require Import Word Fips197 Spec_User.
Open Scope string_scope.
Open Scope list_scope.

(** ** Types and items *)
Inductive ty : Type :=
| Blk (g : group)                        (* AesBlock, AesBlockX2, AesBlockX4 *)
| EncT (k : key_size) | DecT (k : key_size)   (* Aes128Enc ... Aes256Dec *)
| U8 | U32 | U64 | U128 | Usize | Bool | Unit
| U8s (n : nat) | Array (t : ty) (n : nat) | Slice (t : ty) | Ref (t : ty) | RefMut (t : ty)
| Tup2 (a b : ty) | Tup4 (a b c d : ty)
| Simd (name : string)                   (* core::arch vector types *)
| Const (n : nat)                        (* argument of a const generic *)
| Free.                                  (* not associated with a type: free functions *)
(** A function or method ([self] first) with its types, [is_const]: declared [const fn]; or a trait implementation: trait, its parameters,
    the type, the associated types.  Methods of a trait of this crate count as functions of the type that implements it. *)
Inductive item : Type :=
| Fn (is_const : bool) (of : ty) (name : string) (args : list ty) (result : ty)
| Impl (trait : string) (params : list ty) (for_ : ty) (assoc : list (string * ty)).

(** ** The documented interface *)
Definition block_api (g : group) : list item :=
  let b := Blk g in let n := group_len g in
  [Fn true b "new" [U8s n] b; Fn false b "store_to" [b; RefMut (Slice U8)] Unit; Fn false b "zero" [] b; Fn false b "is_zero" [b] Bool] ++
  map (fun f => Fn false b f [b; b] b) ["enc"; "dec"; "enc_last"; "dec_last"] ++
  map (fun f => Fn false b f [b; Ref (Slice b)] b) ["chain_enc"; "chain_dec"] ++
  map (fun t => Impl t [] b []) ["Copy"; "Clone"; "Eq"; "Default"; "Debug"] ++
  [Impl "PartialEq" [b] b []] ++
  [Impl "From" [U8s n] b []; Impl "From" [Ref (U8s n)] b []; Impl "TryFrom" [Ref (Slice U8)] b [("Error", Usize)]; Impl "From" [b] (U8s n) []] ++
  map (fun t => Impl t [b] b [("Output", b)]) ["BitAnd"; "BitOr"; "BitXor"] ++
  [Impl "Not" [] b [("Output", b)]] ++
  map (fun t => Impl t [b] b []) ["BitAndAssign"; "BitOrAssign"; "BitXorAssign"].
Definition single_api : list item :=
  let b := Blk One in
  [Fn false b "mc" [b] b; Fn false b "imc" [b] b; Impl "From" [U128] b []; Impl "From" [b] U128 []] ++
  map (fun t => Impl t [] b []) ["Display"; "Binary"; "LowerHex"; "UpperHex"].
Definition wide_api : list item :=
  let b1 := Blk One in let b2 := Blk Two in let b4 := Blk Four in
  [Impl "From" [Tup2 b1 b1] b2 []; Impl "From" [b1] b2 []; Impl "From" [b2] (Tup2 b1 b1) [];
   Impl "From" [Tup4 b1 b1 b1 b1] b4 []; Impl "From" [Tup2 b2 b2] b4 []; Impl "From" [b1] b4 []; Impl "From" [b2] b4 [];
   Impl "From" [b4] (Tup4 b1 b1 b1 b1) []; Impl "From" [b4] (Tup2 b2 b2) []].
Definition key_api (k : key_size) : list item :=
  let e := EncT k in let d := DecT k in let n := key_len k in
  [Impl "Debug" [] e []; Impl "Clone" [] e []; Impl "From" [U8s n] e []; Impl "AesEncrypt" [Const n] e [("Decrypter", d)];
   Impl "Debug" [] d []; Impl "Clone" [] d []; Impl "From" [U8s n] d []; Impl "AesDecrypt" [Const n] d [("Encrypter", e)];
   Fn false e "decrypter" [Ref e] d; Fn false d "encrypter" [Ref d] e] ++
  flat_map (fun fg => let b := Blk (snd fg) in
     [Fn false e ("encrypt_" ++ fst fg) [Ref e; b] b; Fn false d ("decrypt_" ++ fst fg) [Ref d; b] b])
   [("block", One); ("2_blocks", Two); ("4_blocks", Four)].
Definition documented : list item :=
  block_api One ++ block_api Two ++ block_api Four ++ single_api ++ wide_api ++ key_api K128 ++ key_api K192 ++ key_api K256.

(** ** What a program can ask *)
Inductive demand : Type :=
| Calls (in_const : bool) (of : ty) (name : string) (args : list ty) (result : ty)    (* a call, perhaps in a constant *)
| Relies (trait : string) (params : list ty) (for_ : ty) (assoc : list (string * ty))  (* operators, into(), trait bounds *)
| Moves (t : ty)                                                                       (* Send, Sync, Unpin, UnwindSafe, RefUnwindSafe *)
| Matches (t : ty).                                                                    (* [match x { C => .. }], C a constant of type t *)
(** What the compiler knows of a crate: its items, and of each of its types the fields and whether [PartialEq] and [Eq] are derived. *)
Record decl : Type := Decl { d_derives_eq : bool; d_fields : list ty }.
Record interface : Type := Interface { items : list item; types : ty -> option decl }.

(** Rust's rules (Reference, "auto traits" and "const patterns"): a struct has the auto traits if its fields have them; a constant is a
    pattern if equality of its type, and of the fields, is derived or built in (vector types have no equality). *)
Inductive everywhere (base : ty -> bool) (on_decl : decl -> bool) (i : interface) : ty -> Prop :=
| In_struct t d : types i t = Some d -> on_decl d = true -> (forall f, In f (d_fields d) -> everywhere base on_decl i f) -> everywhere base on_decl i t
| In_array t n : everywhere base on_decl i t -> everywhere base on_decl i (Array t n)
| In_tup2 a b : everywhere base on_decl i a -> everywhere base on_decl i b -> everywhere base on_decl i (Tup2 a b)
| In_tup4 a b c d : everywhere base on_decl i a -> everywhere base on_decl i b -> everywhere base on_decl i c -> everywhere base on_decl i d ->
    everywhere base on_decl i (Tup4 a b c d)
| In_base t : types i t = None -> base t = true -> everywhere base on_decl i t.
Definition number (t : ty) : bool := match t with U8 | U32 | U64 | U128 | Usize | Bool | Unit | U8s _ => true | _ => false end.
Definition number_or_vector (t : ty) : bool := match t with Simd _ => true | t => number t end.
Definition auto_traits : interface -> ty -> Prop := everywhere number_or_vector (fun _ => true).
Definition matchable : interface -> ty -> Prop := everywhere number d_derives_eq.
(** A [const fn] may also be called at run time. *)
Definition meets (i : interface) (d : demand) : Prop :=
  match d with
  | Calls in_const t f a r => In (Fn true t f a r) (items i) \/ (in_const = false /\ In (Fn false t f a r) (items i))
  | Relies tr ps t asc => In (Impl tr ps t asc) (items i)
  | Moves t => auto_traits i t
  | Matches t => matchable i t
  end.
Definition compiles_with (i : interface) (program : list demand) : Prop := Forall (meets i) program.
Definition matches_no_constant (program : list demand) : Prop := Forall (fun d => match d with Matches _ => False | _ => True end) program.

(** ** Compile-time evaluation *)
(** Standard library functions that are [const fn] (all since Rust 1.56 or earlier, except pointer::add since 1.61). *)
Definition std_const : list string := ["mem::transmute"; "u128::from_ne_bytes"; "slice::len"; "slice::as_ptr"; "pointer::add"; "pointer::cast"].
Inductive callee : Type := Std (name : string) | Crate (i : item).
(** [bodies]: the [const fn]s and what each calls.  The compiler evaluates a call in a constant if it is one of these and all it calls can be. *)
Inductive evaluable (bodies : list (item * list callee)) : item -> Prop :=
| Evaluable t f args r calls : In (Fn true t f args r, calls) bodies ->
    (forall s, In (Std s) calls -> In s std_const) -> (forall x, In (Crate x) calls -> evaluable bodies x) ->
    evaluable bodies (Fn true t f args r).
