(** SPECIFICATION for C49, whole clients: the AES instructions of each call in a transcript (Spec_Client.v), from the price list of
    Spec_Cost.v.  Only the calls and the kinds of the answers count, and of the variables only the key size of a key object. *)
From Coq Require Import List Arith.
From Verif Require Import Word Fips197 Spec_User Spec_Cfg Spec_Client Spec_Cost Model_Running.
Open Scope list_scope.
Open Scope nat_scope.

(** The key size of each variable that holds a key object, before and after a call. *)
Definition sizes := list (option key_size).
Definition size_at (vars : sizes) (x : nat) : option key_size := nth x vars None.
Definition sizes_after (vars : sizes) (c : call) (a : answer) : sizes :=
  match a with
  | Made n => vars ++ match c with
      | Enc_from k _ | Dec_from k _ => [Some k]
      | Decrypter x | Encrypter x | Copy x => [size_at vars x]
      | _ => repeat None n
      end
  | _ => vars
  end.
(** [q] rounds on each of the vectors a group of blocks is held in. *)
Definition rounds_price (p : promised) (dec : bool) (g : group) (q : nat) : bill := scale q (scale (vec_m p g) (round_bill p dec (vec_n p g))).
Definition last_price (p : promised) (dec : bool) (g : group) : bill := scale (vec_m p g) (last_bill p dec (vec_n p g)).
Definition with_size (k : option key_size) (f : key_size -> bill) : bill := match k with Some k => f k | None => [] end.
(** What a call costs. *)
Definition price (p : promised) (vars : sizes) (c : call) (a : answer) : bill :=
  match a with
  | Ill_typed | Panics => []
  | _ => match c with
    | On g (Enc _ _) => rounds_price p false g 1
    | On g (Dec _ _) => rounds_price p true g 1
    | On g (Enc_last _ _) => last_price p false g
    | On g (Dec_last _ _) => last_price p true g
    | On g (Chain_enc _ keys) => rounds_price p false g (length keys - 1)
    | On g (Chain_dec _ keys) => rounds_price p true g (length keys - 1)
    | On g (Encrypt x _) => with_size (size_at vars x) (fun k => crypt_bill p false k g)
    | On g (Decrypt x _) => with_size (size_at vars x) (fun k => crypt_bill p true k g)
    | Mc _ => mc_bill p
    | Imc _ => imc_bill p
    | Enc_from k _ => setup_bill p k
    | Dec_from k _ => setup_bill p k ++ scale (nr_of k - 1) (imc_bill p)
    | Decrypter x => with_size (size_at vars x) (fun k => scale (nr_of k - 1) (imc_bill p))
    | Encrypter x => with_size (size_at vars x) (fun k => scale (nr_of k - 1) (mc_bill p))
    | _ => []
    end
  end.
(** The bills of the calls of a transcript, one after the other. *)
Fixpoint invoice (p : promised) (vars : sizes) (t : list (call * answer)) : list bill :=
  match t with
  | [] => []
  | (c, a) :: t => price p vars c a :: invoice p (sizes_after vars c a) t
  end.
