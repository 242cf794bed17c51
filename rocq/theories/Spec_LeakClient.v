(** SPECIFICATION for C44: what an observer of timing and memory accesses sees of an arbitrary client of the crate.

    Clients are those of Spec_Client.v.  Two clients are compared by the SHAPES of the calls they make: which functions, on which
    variables, with literals (keys, plaintexts, slices) of which lengths - not which bytes. *)
From Coq Require Import Arith.
From Verif Require Import Word Interface Fips197 Spec_Api Spec_User Spec_Cfg Spec_Client Spec_Leak.
Open Scope N_scope.
Open Scope list_scope.

(** A call without the bytes in it. *)
Definition blank (b : list N) : list N := repeat 0 (length b).
Definition shape_on (c : wcall) : wcall :=
  match c with
  | New b => New (blank b) | From_array b => From_array (blank b) | From_ref b => From_ref (blank b)
  | Try_from s => Try_from (blank s)
  | Store_to x dst => Store_to x (blank dst)
  | c => c
  end.
(** ... and whether the Rust compiler accepts its literals. *)
Definition shape (c : call) : call * bool :=
  (match c with
   | On g c => On g (shape_on c)
   | From_u128 _ => From_u128 0
   | Enc_from k key => Enc_from k (blank key) | Dec_from k key => Dec_from k (blank key)
   | c => c
   end, typed c).

(** What the observer sees of each call of a client; [step] is a library that also says what each call shows. *)
Fixpoint watch {S E} (step : list S -> call -> option (answer * list S * list E)) (vars : list S) (p : client) : list (list E) :=
  match p with
  | Stop => []
  | Do c next =>
      match (if typed c then step vars c else None) with
      | Some (a, vars', seen) => seen :: watch step vars' (next a)
      | None => [] :: watch step vars (next Ill_typed)
      end
  end.
Definition heard {S E} (step : list S -> call -> option (answer * list S * list E)) (vars : list S) (c : call) : option (answer * list S) :=
  option_map fst (step vars c).

(** The calls whose observations do not depend on bytes in each build.  Formatting ([Debug] etc.) is not meant to be among them
    anywhere.  [==] is when one instruction or one u128 comparison decides it (C43).  With the default software implementation what
    computes AES is only to an observer who does not see which entry of a table is looked up: [tables] says if the observer does. *)
Definition computes_aes_quietly (tables : bool) (p : promised) : bool := match p with P_software => negb tables | _ => true end.
Definition compares_at_once (p : promised) (g : group) : bool :=
  match p, g with
  | P_aesni_vaes4, _ => true
  | P_aesni_vaes2, (One | Two) => true
  | (P_aesni | P_neon | P_constant_time), One => true
  | _, _ => false
  end.
Definition silent_on (tables : bool) (p : promised) (g : group) (c : wcall) : bool :=
  match c with
  | Debug _ _ _ => false
  | Equal _ _ => compares_at_once p g
  | Enc _ _ | Dec _ _ | Enc_last _ _ | Dec_last _ _ | Chain_enc _ _ | Chain_dec _ _ | Encrypt _ _ | Decrypt _ _ => computes_aes_quietly tables p
  | _ => true
  end.
Definition silent (tables : bool) (p : promised) (c : call) : bool :=
  match c with
  | On g c => silent_on tables p g c
  | Print _ _ _ _ | Debug_key _ _ _ => false
  | Mc _ | Imc _ | Enc_from _ _ | Dec_from _ _ | Decrypter _ | Encrypter _ => computes_aes_quietly tables p
  | _ => true
  end.
(** Every call made in a transcript is one of these; and its calls without their bytes. *)
Definition all_silent (tables : bool) (p : promised) (t : list (call * answer)) : Prop := Forall (fun ca => silent tables p (fst ca) = true) t.
(** The calls that format a value. *)
Definition formats (c : call) : bool := match c with Print _ _ _ _ | Debug_key _ _ _ | On _ (Debug _ _ _) => true | _ => false end.
Definition no_formatting (t : list (call * answer)) : Prop := Forall (fun ca => formats (fst ca) = false) t.
Definition shapes (t : list (call * answer)) : list (call * bool) := map (fun ca => shape (fst ca)) t.
(** A client that makes the calls of a list, whatever the answers. *)
Fixpoint straight (l : list call) : client := match l with [] => Stop | c :: l => Do c (fun _ => straight l) end.
