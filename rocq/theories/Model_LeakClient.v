(** Every call a client can make (Spec_Client.v), except formatting, as a program of the language of Spec_Leak.v: what it answers
    and what its execution shows.  A block lives in memory as its bytes, a key object as its array of round keys ([round_keys],
    lib.rs:430-449), each round key a number as in Model_Leak.v. *)
From Coq Require Import String.
From Coq Require Import List Arith.
From Verif Require Import Word Interface Fips197 Spec_Api Spec_User Spec_Cfg Spec_Client Spec_Leak Model_Leak Model_LeakAccel Model_LeakBlock Model_Running.
Open Scope string_scope.
Open Scope list_scope.
Open Scope N_scope.
Open Scope leak_scope.

(* The values of the exported types (lib.rs:50-119, 430-522), as their bytes. *)
Inductive tvalue : Type := TBlock (g : group) (b : list N) | TEnc (k : key_size) (rk : list N) | TDec (k : key_size) (rk : list N).
(* No counterpart in the source: looks up a client's variable. *)
Definition tblock_at (vars : list tvalue) (g : group) (x : nat) : option (list N) :=
  match nth_error vars x with Some (TBlock h b) => if group_eqb g h then Some b else None | _ => None end.

(** Data moves: loads, stores, register moves, transmutes, from_ne_bytes / to_ne_bytes; written byte by byte.  A list of (array,
    first index, length) is copied to "out". *)
(* As the copies of aes_bitslice.rs:284-287 (store_to), lib.rs:127-154. *)
Definition places (l : list (string * nat * nat)) : list (string * nat) :=
  flat_map (fun ain => map (fun t => (fst (fst ain), snd (fst ain) + t)%nat) (seq 0 (snd ain))) l.
(* As the copies of aes_bitslice.rs:284-287 (store_to), lib.rs:127-154. *)
Definition s_copy_to (dst : string) (l : list (string * nat)) : stmt :=
  block (map (fun jp => Store dst (Lit (N.of_nat (fst jp))) (Index (fst (snd jp)) (Lit (N.of_nat (snd (snd jp)))))) (combine (seq 0 (length l)) l)).
(* From / Into of lib.rs:127-188, aesdefault_x2.rs:10-36, aesdefault_x4.rs:10-59. *)
Definition copy_program (l : list (string * nat * nat)) : stmt :=
  Seq (Zeroed "out" (length (places l))) (s_copy_to "out" (places l)).
(** lib.rs:127-133: [if value.len() >= N], written as a test of value.len() / N *)
Definition try_from_program (n : nat) : stmt :=
  If (Bin Divide (Len "in") (Lit (N.of_nat n))) (Seq (Assign "r" (Lit 1)) (copy_program [("in", 0, n)%nat])) (Assign "r" (Lit 0)).
(** store_to (aes_x86.rs:72-75 and the others): [assert!(dst.len() >= N)], then a store of N bytes; the two halves of
    aesdefault_x2.rs:84-88 and aesdefault_x4.rs:107-111 check lengths again, which depend on the length only *)
Definition store_program (n : nat) : stmt :=
  If (Bin Divide (Len "dst") (Lit (N.of_nat n))) (Seq (Assign "r" (Lit 1)) (s_copy_to "dst" (places [("in", 0, n)%nat]))) (Assign "r" (Lit 0)).

(** The observed run of a program; [obs] says what is observed: [trace] (C44) or the instructions executed (C37, C49). *)
(* No counterpart in the source: runs a program of the other Model_Leak files (lib.rs as a whole). *)
Definition ran_with {E A} (obs : stmt -> state -> list E) (prog : stmt) (st : state) (k : state -> A) : option (A * list E) := Some (k (final prog st), obs prog st).
(* No counterpart in the source: puts the caller's buffer (lib.rs, store_to) into the state. *)
Definition with_arr (name : string) (l : list N) (st : state) : state := set_arr st name l.

Section Timed.
  Context {E : Type} (obs : stmt -> state -> list E) (p : promised) (be : bool).
  Notation ran := (ran_with obs).

  (** The functions of AesBlock, AesBlockX2, AesBlockX4; programs of Model_LeakBlock.v, Model_Leak.v *)
  (* lib.rs:127-210 and the block functions of the selected modules, with their observations. *)
  Definition timed_on_with (vars : list tvalue) (g : group) (c : wcall) : option (answer * list tvalue * list E) :=
    let n := vec_n p g in let m := vec_m p g in let len := group_len g in let bb := block_be p be in
    let arg x k := obind (tblock_at vars g x) k in
    let args xs k := obind (oall (map (tblock_at vars g) xs)) k in
    let made prog st := ran prog st (fun s => (Made 1, vars ++ [TBlock g (arrs s "out")])) in
    let says prog st f := ran prog st (fun s => (f s, vars)) in
    let binary f x y := arg x (fun a => arg y (fun b => made (binary_program bb n m f) (start b a))) in
    let assigned f x y := arg x (fun a => arg y (fun b =>
      ran (binary_program bb n m f) (start b a) (fun s => (Made 0, assign vars x (TBlock g (arrs s "out")))))) in
    let round f x y := obind (engine_of p be) (fun e => arg x (fun a => arg y (fun b => made (binary_program (g_be e) n m (f e n)) (start b a)))) in
    let chain (dec : bool) x ks := obind (engine_of p be) (fun e => arg x (fun a => args ks (fun l =>
      ran (chain_program (g_be e) n m (option_map (if dec then snd else fst) (g_pre e)) (if dec then g_dec e n else g_enc e n) (length l)) (start (concat l) a)
          (fun s => match l with [] => (Panics, vars) | _ => (Made 1, vars ++ [TBlock g (arrs s "out")]) end)))) in
    let truth s := Truth (negb (nth 0 (arrs s "out") 0 =? 0)) in
    match c with
    | New b | From_array b | From_ref b => made (copy_program [("in", 0, len)%nat]) (start [] b)
    | Try_from b => ran (try_from_program len) (start [] b)
        (fun s => if Spec_Leak.vars s "r" =? 0 then (Too_short (length b), vars) else (Made 1, vars ++ [TBlock g (arrs s "out")]))
    | Zero | Default => made (Zeroed "out" len) (start [] [])
    | Spec_Client.And x y => binary (Bin And) x y
    | Spec_Client.Or x y => binary (Bin Or) x y
    | Spec_Client.Xor x y => binary (Bin Xor) x y
    | Not x => arg x (fun a => made (unary_program bb n m (x_not n)) (start [] a))
    | And_assign x y => assigned (Bin And) x y
    | Or_assign x y => assigned (Bin Or) x y
    | Xor_assign x y => assigned (Bin Xor) x y
    | Enc x y => round g_enc x y
    | Dec x y => round g_dec x y
    | Enc_last x y => round g_enc_last x y
    | Dec_last x y => round g_dec_last x y
    | Chain_enc x ks => chain false x ks
    | Chain_dec x ks => chain true x ks
    | To_array x => arg x (fun a => says (copy_program [("in", 0, len)%nat]) (start [] a) (fun s => Bytes (arrs s "out")))
    | Store_to x dst => arg x (fun a => says (store_program len) (with_arr "dst" dst (start [] a)) (fun s => Buffer (Spec_Leak.vars s "r" =? 0) (arrs s "dst")))
    | Is_zero x => arg x (fun a => says (is_zero_program bb n m) (start [] a) truth)
    | Equal x y => arg x (fun a => arg y (fun b => says (equal_program bb n m (eq_fields p)) (start b a) truth))
    | Debug _ _ _ => None
    | Encrypt d x => obind (engine_of p be) (fun e => match nth_error vars d with
        | Some (TEnc k rk) => arg x (fun a => made (s_crypt e k n m false "keys") (with_arr "keys" rk (start [] a))) | _ => None end)
    | Decrypt d x => obind (engine_of p be) (fun e => match nth_error vars d with
        | Some (TDec k rk) => arg x (fun a => made (s_crypt e k n m true "keys") (with_arr "keys" rk (start [] a))) | _ => None end)
    end.

  (** lib.rs:142-154 (u128), 311-331 (mc, imc), 430-516 (key objects); the conversions between widths: aesdefault_x2.rs:16-36,
      aesdefault_x4.rs:16-59, aesni_x2.rs:30-54, aesni_x4.rs:32-89 *)
  Definition timed_with (vars : list tvalue) (c : call) : option (answer * list tvalue * list E) :=
    let arg g x k := obind (tblock_at vars g x) k in
    let made prog st f := ran prog st (fun s => let l := f s in (Made (length l), vars ++ l)) in
    let out g s := [TBlock g (arrs s "out")] in
    let mix f x := obind (engine_of p be) (fun e => arg One x (fun a => made (unary_program (g_be e) 1 1 (f e)) (start [] a) (out One))) in
    let swap f k rk := made (s_swap_keys f "keys" "drk" (nr_of k + 1)) (with_arr "keys" rk (start [] [])) in
    match c with
    | On g c => timed_on_with vars g c
    | From_u128 v => made (copy_program [("in", 0, 16)%nat]) (start [] (to_be 16 v)) (out One)
    | To_u128 x => arg One x (fun a => ran (copy_program [("in", 0, 16)%nat]) (start [] a) (fun s => (Number (of_be (arrs s "out")), vars)))
    | Mc x => mix g_mc x
    | Imc x => mix g_imc x
    | Print _ _ _ _ => None
    | X2_from_pair a b => arg One a (fun a => arg One b (fun b =>
        made (copy_program [("in", 0, 16); ("in1", 0, 16)]%nat) (with_arr "in1" b (start [] a)) (out Two)))
    | X2_from_block a => arg One a (fun a => made (copy_program [("in", 0, 16); ("in", 0, 16)]%nat) (start [] a) (out Two))
    | X2_into_pair x => arg Two x (fun a => made (copy_program [("in", 0, 32)]%nat) (start [] a) (fun s => map (TBlock One) (lanes 2 (arrs s "out"))))
    | X4_from_quad a b c d => arg One a (fun a => arg One b (fun b => arg One c (fun c => arg One d (fun d =>
        made (copy_program [("in", 0, 16); ("in1", 0, 16); ("in2", 0, 16); ("in3", 0, 16)]%nat)
             (with_arr "in3" d (with_arr "in2" c (with_arr "in1" b (start [] a)))) (out Four)))))
    | X4_from_pair a b => arg Two a (fun a => arg Two b (fun b =>
        made (copy_program [("in", 0, 32); ("in1", 0, 32)]%nat) (with_arr "in1" b (start [] a)) (out Four)))
    | X4_from_block a => arg One a (fun a => made (copy_program [("in", 0, 16); ("in", 0, 16); ("in", 0, 16); ("in", 0, 16)]%nat) (start [] a) (out Four))
    | X4_from_x2 a => arg Two a (fun a => made (copy_program [("in", 0, 32); ("in", 0, 32)]%nat) (start [] a) (out Four))
    | X4_into_quad x => arg Four x (fun a => made (copy_program [("in", 0, 64)]%nat) (start [] a) (fun s => map (TBlock One) (lanes 4 (arrs s "out"))))
    | X4_into_pair x => arg Four x (fun a => made (copy_program [("in", 0, 64)]%nat) (start [] a)
        (fun s => [TBlock Two (firstn 32 (arrs s "out")); TBlock Two (skipn 32 (arrs s "out"))]))
    | Enc_from k key => obind (engine_of p be) (fun e => made (g_keygen e k) (start key []) (fun s => [TEnc k (arrs s "keys")]))
    | Dec_from k key => obind (engine_of p be) (fun e =>
        made (Seq (g_keygen e k) (s_swap_keys (g_imc e) "keys" "drk" (nr_of k + 1))) (start key []) (fun s => [TDec k (arrs s "drk")]))
    | Decrypter x => obind (engine_of p be) (fun e => match nth_error vars x with
        | Some (TEnc k rk) => swap (g_imc e) k rk (fun s => [TDec k (arrs s "drk")]) | _ => None end)
    | Encrypter x => obind (engine_of p be) (fun e => match nth_error vars x with
        | Some (TDec k rk) => swap (g_mc e) k rk (fun s => [TEnc k (arrs s "drk")]) | _ => None end)
    | Debug_key _ _ _ => None
    | Copy x => obind (nth_error vars x) (fun v => match v with
        | TBlock g b => made (copy_program [("in", 0, group_len g)]%nat) (start [] b) (out g)
        | TEnc k rk => made (copy_program [("in", 0, nr_of k + 1)]%nat) (start [] rk) (fun s => [TEnc k (arrs s "out")])
        | TDec k rk => made (copy_program [("in", 0, nr_of k + 1)]%nat) (start [] rk) (fun s => [TDec k (arrs s "out")])
        end)
    end.
End Timed.
Notation timed_on := (timed_on_with trace).
Notation timed := (timed_with trace).
