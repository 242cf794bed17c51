(** SPECIFICATION for C40: arbitrary client programs of the crate, and the ideal library they believe they use.

    A client holds values (blocks, wide blocks, key objects) in numbered variables, makes calls, and decides what to do
    next from what it has seen: bytes, numbers, booleans, texts, panics.  It never sees the inside of a value.  The ideal
    library keeps a block as its bytes and a key object as the key, and answers with FIPS 197. *)
From Coq Require Import String Arith.
From Verif Require Import Word Interface Fips197 Spec_Api Spec_User Spec_Fmt.
Open Scope string_scope.
Open Scope N_scope.
Open Scope list_scope.

(** ** Calls *)
(** The functions AesBlock, AesBlockX2 and AesBlockX4 have in common; [nat]s are variables, byte lists are literals. *)
Inductive wcall : Type :=
| New (b : list N) | From_array (b : list N) | From_ref (b : list N)      (* new, From<[u8; N]>, From<&[u8; N]> *)
| Try_from (s : list N)                                                   (* TryFrom<&[u8]> *)
| Zero | Default
| And (x y : nat) | Or (x y : nat) | Xor (x y : nat) | Not (x : nat)      (* &, |, ^, ! *)
| And_assign (x y : nat) | Or_assign (x y : nat) | Xor_assign (x y : nat) (* &=, |=, ^= *)
| Enc (x k : nat) | Dec (x k : nat) | Enc_last (x k : nat) | Dec_last (x k : nat)
| Chain_enc (x : nat) (ks : list nat) | Chain_dec (x : nat) (ks : list nat)
| To_array (x : nat)                                                      (* Into<[u8; N]> *)
| Store_to (x : nat) (dst : list N)                                       (* store_to(&mut dst) *)
| Is_zero (x : nat) | Equal (x y : nat)
| Debug (alternate : bool) (width : option nat) (x : nat)                 (* {:?}, {:#?} *)
| Encrypt (e x : nat) | Decrypt (d x : nat).                              (* encrypt_block / _2_blocks / _4_blocks *)
Inductive style : Type := LowerHex | UpperHex | Binary | Display.
Inductive call : Type :=
| On (g : group) (c : wcall)                                              (* One: AesBlock, Two: AesBlockX2, Four: AesBlockX4 *)
| From_u128 (v : N) | To_u128 (x : nat)
| Mc (x : nat) | Imc (x : nat)
| Print (st : style) (alternate : bool) (width : option nat) (x : nat)    (* {:x}, {:#X}, {:b}, {} of an AesBlock *)
| X2_from_pair (a b : nat) | X2_from_block (a : nat) | X2_into_pair (x : nat)
| X4_from_quad (a b c d : nat) | X4_from_pair (a b : nat) | X4_from_block (a : nat) | X4_from_x2 (a : nat)
| X4_into_quad (x : nat) | X4_into_pair (x : nat)
| Enc_from (k : key_size) (key : list N) | Dec_from (k : key_size) (key : list N)
| Decrypter (e : nat) | Encrypter (d : nat)
| Debug_key (alternate : bool) (width : option nat) (x : nat)             (* {:?} of a key object *)
| Copy (x : nat).                                                         (* let y = x; or x.clone() *)

(** What a client sees of a call. *)
Inductive answer : Type :=
| Made (n : nat)                       (* [n] new values, in the next [n] variables *)
| Bytes (b : list N)
| Buffer (panicked : bool) (b : list N)  (* the buffer handed to store_to afterwards *)
| Number (v : N) | Truth (b : bool) | Text (s : string)
| Too_short (len : nat)                (* Err(len) of try_from *)
| Panics
| Undefined                            (* undefined behaviour *)
| Ill_typed.                           (* the Rust compiler would have refused the call *)

(** Literals must be of the type the function asks for ([u8; 16], [u128], ...). *)
Definition typed_on (g : group) (c : wcall) : bool :=
  match c with
  | New b | From_array b | From_ref b => is_bytesb (group_len g) b
  | Try_from s => is_bytesb (List.length s) s
  | Store_to _ dst => is_bytesb (List.length dst) dst
  | _ => true
  end.
Definition typed (c : call) : bool :=
  match c with
  | On g c => typed_on g c
  | From_u128 v => v <? 2 ^ 128
  | Enc_from k key | Dec_from k key => is_bytesb (key_len k) key
  | _ => true
  end.

(** ** Clients: any finite, adaptive behaviour *)
Inductive client : Type := Stop | Do (c : call) (next : answer -> client).
(** The transcript of a client with a library; [step] returns [None] when a variable does not exist or has another type. *)
Fixpoint play {S} (step : list S -> call -> option (answer * list S)) (vars : list S) (p : client) : list (call * answer) :=
  match p with
  | Stop => []
  | Do c next =>
      match (if typed c then step vars c else None) with
      | Some (a, vars') => (c, a) :: play step vars' (next a)
      | None => (c, Ill_typed) :: play step vars (next Ill_typed)
      end
  end.
Fixpoint makes_only (ok : call -> bool) (p : client) : Prop :=
  match p with Stop => True | Do c next => ok c = true /\ forall a, makes_only ok (next a) end.

(** ** Variables *)
Definition obind {A B} (m : option A) (k : A -> option B) : option B := match m with Some a => k a | None => None end.
Definition oall {A} (l : list (option A)) : option (list A) :=
  fold_right (fun m r => obind m (fun a => obind r (fun q => Some (a :: q)))) (Some []) l.
Definition assign {A} (vars : list A) (x : nat) (v : A) : list A := firstn x vars ++ v :: skipn (S x) vars.

(** ** The ideal library *)
Inductive value : Type := Block (g : group) (b : list N) | EncKey (k : key_size) (key : list N) | DecKey (k : key_size) (key : list N).
Definition group_eqb (g h : group) : bool := match g, h with One, One | Two, Two | Four, Four => true | _, _ => false end.
Definition blocks_in (g : group) : nat := match g with One => 1 | Two => 2 | Four => 4 end.
Definition block_at (vars : list value) (g : group) (x : nat) : option (list N) :=
  match nth_error vars x with Some (Block h b) => if group_eqb g h then Some b else None | _ => None end.
(** The round keys of an encryption object; those of a decryption object are those of FIPS 197's equivalent inverse
    cipher (section 5.3.5): reversed, all but the first and last passed through InvMixColumns. *)
Definition inverse_round_keys (k : key_size) (key : list N) : list (list N) :=
  map (fun j => let r := nth (nr_of k - j) (round_keys k key) [] in
                if Nat.eqb j 0 || Nat.eqb j (nr_of k) then r else inv_mix_columns r) (seq 0 (nr_of k + 1)).

Definition ideal_on (vars : list value) (g : group) (c : wcall) : option (answer * list value) :=
  let n := group_len g in let m := blocks_in g in
  let arg x k := obind (block_at vars g x) k in
  let args xs k := obind (oall (map (block_at vars g) xs)) k in
  let made b := Some (Made 1, vars ++ [Block g b]) in
  let says a := Some (a, vars) in
  let sets x b := Some (Made 0, assign vars x (Block g b)) in
  let chain round x ks := arg x (fun a => args ks (fun l =>
    match l with [] => says Panics | k0 :: r => made (fold_left (on_lanes m round) r (map2 N.lxor a k0)) end)) in
  match c with
  | New b | From_array b | From_ref b => made b
  | Try_from s => if Nat.ltb (List.length s) n then says (Too_short (List.length s)) else made (firstn n s)
  | Zero | Default => made (repeat 0 n)
  | And x y => arg x (fun a => arg y (fun b => made (map2 N.land a b)))
  | Or x y => arg x (fun a => arg y (fun b => made (map2 N.lor a b)))
  | Xor x y => arg x (fun a => arg y (fun b => made (map2 N.lxor a b)))
  | Not x => arg x (fun a => made (map (N.lxor 255) a))
  | And_assign x y => arg x (fun a => arg y (fun b => sets x (map2 N.land a b)))
  | Or_assign x y => arg x (fun a => arg y (fun b => sets x (map2 N.lor a b)))
  | Xor_assign x y => arg x (fun a => arg y (fun b => sets x (map2 N.lxor a b)))
  | Enc x y => arg x (fun a => arg y (fun b => made (on_lanes m spec_enc a b)))
  | Dec x y => arg x (fun a => arg y (fun b => made (on_lanes m spec_dec a b)))
  | Enc_last x y => arg x (fun a => arg y (fun b => made (on_lanes m spec_enc_last a b)))
  | Dec_last x y => arg x (fun a => arg y (fun b => made (on_lanes m spec_dec_last a b)))
  | Chain_enc x ks => chain spec_enc x ks
  | Chain_dec x ks => chain spec_dec x ks
  | To_array x => arg x (fun a => says (Bytes a))
  | Store_to x dst => arg x (fun a => says (if Nat.ltb (List.length dst) n then Buffer true dst else Buffer false (a ++ skipn n dst)))
  | Is_zero x => arg x (fun a => says (Truth (if list_eq_dec N.eq_dec a (repeat 0 n) then true else false)))
  | Equal x y => arg x (fun a => arg y (fun b => says (Truth (if list_eq_dec N.eq_dec a b then true else false))))
  | Debug alt _ x => arg x (fun a => says (Text match g with One => hex_of alt (of_be a) | _ => tuple_text alt (map of_be (lanes m a)) end))
  | Encrypt e x => match nth_error vars e with Some (EncKey k key) => arg x (fun a => made (each_block (aes_encrypt k key) a)) | _ => None end
  | Decrypt d x => match nth_error vars d with Some (DecKey k key) => arg x (fun a => made (each_block (aes_decrypt k key) a)) | _ => None end
  end.

Definition ideal (vars : list value) (c : call) : option (answer * list value) :=
  let arg g x k := obind (block_at vars g x) k in
  let made l := Some (Made (List.length l), vars ++ l) in
  let says a := Some (a, vars) in
  match c with
  | On g c => ideal_on vars g c
  | From_u128 v => made [Block One (to_be 16 v)]
  | To_u128 x => arg One x (fun a => says (Number (of_be a)))
  | Mc x => arg One x (fun a => made [Block One (mix_columns a)])
  | Imc x => arg One x (fun a => made [Block One (inv_mix_columns a)])
  | Print st alt _ x => arg One x (fun a => let v := of_be a in says (Text
      match st with
      | LowerHex => (if alt then "0x" else "") ++ numeral "0123456789abcdef" 16 32 v
      | UpperHex => (if alt then "0X" else "") ++ numeral "0123456789ABCDEF" 16 32 v
      | Binary => (if alt then "0b" else "") ++ numeral "01" 2 128 v
      | Display => hex_of alt v
      end%string))
  | X2_from_pair a b => arg One a (fun a => arg One b (fun b => made [Block Two (a ++ b)]))
  | X2_from_block a => arg One a (fun a => made [Block Two (a ++ a)])
  | X2_into_pair x => arg Two x (fun a => made (map (Block One) (lanes 2 a)))
  | X4_from_quad a b c d => arg One a (fun a => arg One b (fun b => arg One c (fun c => arg One d (fun d => made [Block Four (a ++ b ++ c ++ d)]))))
  | X4_from_pair a b => arg Two a (fun a => arg Two b (fun b => made [Block Four (a ++ b)]))
  | X4_from_block a => arg One a (fun a => made [Block Four (a ++ a ++ a ++ a)])
  | X4_from_x2 a => arg Two a (fun a => made [Block Four (a ++ a)])
  | X4_into_quad x => arg Four x (fun a => made (map (Block One) (lanes 4 a)))
  | X4_into_pair x => arg Four x (fun a => made [Block Two (firstn 32 a); Block Two (skipn 32 a)])
  | Enc_from k key => made [EncKey k key]
  | Dec_from k key => made [DecKey k key]
  | Decrypter e => match nth_error vars e with Some (EncKey k key) => made [DecKey k key] | _ => None end
  | Encrypter d => match nth_error vars d with Some (DecKey k key) => made [EncKey k key] | _ => None end
  | Debug_key alt _ x =>
      match nth_error vars x with
      | Some (EncKey k key) => says (Text (object_text alt (object_name true k) (map of_be (round_keys k key))))
      | Some (DecKey k key) => says (Text (object_text alt (object_name false k) (map of_be (inverse_round_keys k key))))
      | _ => None
      end
  | Copy x => obind (nth_error vars x) (fun v => made [v])
  end.

(** ** What a client may call on a given build *)
(** [Full]: everything.  [No_keys]: everything but making key objects.  [Encrypt_rounds_only]: no key objects, and of the
    round functions only the encryption rounds (one at a time). *)
Inductive level : Type := Full | No_keys | Encrypt_rounds_only.
Definition permits_on (l : level) (c : wcall) : bool :=
  match l, c with
  | Encrypt_rounds_only, (Dec _ _ | Dec_last _ _ | Encrypt _ _ | Decrypt _ _) => false
  | Encrypt_rounds_only, (Chain_enc _ (_ :: _ :: _) | Chain_dec _ (_ :: _ :: _)) => false
  | _, _ => true
  end.
Definition permits (l : level) (c : call) : bool :=
  match l, c with
  | Full, _ => true
  | _, (Enc_from _ _ | Dec_from _ _) => false
  | _, On _ c => permits_on l c
  | Encrypt_rounds_only, (Mc _ | Imc _ | Decrypter _ | Encrypter _) => false
  | _, _ => true
  end.

