(** SPECIFICATION for C41: the library a client of ANY build sees, the two non-conforming ones included.

    A [flavour] is what a build does with bytes: its rounds, chains, key schedule and ciphers, written with the operations of
    Fips197 and Spec_Actual only.  There are three: FIPS 197, the constant-time feature on a big-endian target, and RV32 with
    Zkne/Zknd.  [library] is the library of that flavour: a block is its bytes, a key object its list of round keys. *)
From Coq Require Import String Arith.
From Verif Require Import Word Interface Fips197 Spec_Api Spec_User Spec_Fmt Spec_Cfg Spec_Actual Spec_Client Model_Cfg.
Open Scope string_scope.
Open Scope N_scope.
Open Scope list_scope.

Record flavour : Type := Flavour {
  fl_dec : list N -> list N -> list N;
  fl_dec_last : list N -> list N -> list N;
  fl_mc : list N -> list N;
  fl_imc : list N -> list N;
  fl_chain : (list N -> list N -> list N) -> list N -> list (list N) -> list N;   (* of a round function, over a non-empty list *)
  fl_keys : key_size -> list N -> list (list N);                                 (* round keys of an encryption object *)
  fl_encrypt : key_size -> list (list N) -> list N -> list N;                     (* under the round keys of the object *)
  fl_decrypt : key_size -> list (list N) -> list N -> list N
}.
(** The documented chain: the first key is added, each other one ends a round. *)
Definition std_chain (round : list N -> list N -> list N) (x : list N) (keys : list (list N)) : list N :=
  match keys with [] => x | k0 :: r => fold_left round r (map2 N.lxor x k0) end.
(** FIPS 197's equivalent inverse cipher (section 5.3.5) under its own key schedule [dks]. *)
Definition eq_inv_cipher (k : key_size) (dks : list (list N)) (x : list N) : list N :=
  spec_dec_last (std_chain spec_dec x (firstn (nr_of k) dks)) (nth (nr_of k) dks []).
Definition standard : flavour :=
  Flavour spec_dec spec_dec_last mix_columns inv_mix_columns std_chain round_keys cipher_with eq_inv_cipher.
Definition big_endian_ct : flavour :=
  Flavour spec_dec spec_dec_last mix_columns inv_mix_columns std_chain be_round_keys cipher_with eq_inv_cipher.
Definition riscv32 : flavour :=
  Flavour rv32_dec rv32_dec_last rv32_mc rv32_imc rv32_chain rv32_round_keys rv32_encrypt rv32_decrypt.
Definition flavour_of (c : cfg) : flavour :=
  if rv32_zk c then riscv32 else if be_constant_time c then big_endian_ct else standard.

Inductive avalue : Type := ABlock (g : group) (b : list N) | AEnc (k : key_size) (rks : list (list N)) | ADec (k : key_size) (dks : list (list N)).
(** Reversed, all but the first and the last changed by [f]. *)
Definition reversed_keys (f : list N -> list N) (rks : list (list N)) : list (list N) :=
  let n := (List.length rks - 1)%nat in
  map (fun j => let r := nth (n - j) rks [] in if Nat.eqb j 0 || Nat.eqb j n then r else f r) (seq 0 (List.length rks)).

Section Library.
  Context (fl : flavour).
  Definition ablock_at (vars : list avalue) (g : group) (x : nat) : option (list N) :=
    match nth_error vars x with Some (ABlock h b) => if group_eqb g h then Some b else None | _ => None end.

  Definition library_on (vars : list avalue) (g : group) (c : wcall) : option (answer * list avalue) :=
    let n := group_len g in let m := blocks_in g in
    let arg x k := obind (ablock_at vars g x) k in
    let args xs k := obind (oall (map (ablock_at vars g) xs)) k in
    let made b := Some (Made 1, vars ++ [ABlock g b]) in
    let says a := Some (a, vars) in
    let sets x b := Some (Made 0, assign vars x (ABlock g b)) in
    let chain round x ks := arg x (fun a => args ks (fun l =>
      match l with [] => says Panics | _ => made (fl_chain fl (on_lanes m round) a l) end)) in
    match c with
    | New b | From_array b | From_ref b => made b
    | Try_from s => if Nat.ltb (List.length s) n then says (Too_short (List.length s)) else made (firstn n s)
    | Zero | Default => made (repeat 0 n)
    | And x y => arg x (fun a => arg y (fun b => made (map2 N.land a b)))
    | Or x y => arg x (fun a => arg y (fun b => made (map2 N.lor a b)))
    | Xor x y => arg x (fun a => arg y (fun b => made (map2 N.lxor a b)))
    | Not x => arg x (fun a => made (map (N.lxor 255) a))
    | And_assign x y => arg x (fun a => arg y (fun b => sets x (map2 N.land a b)))
    | Or_assign x y => arg x (fun a => arg y (fun b => sets x (map2 N.lor a b)))
    | Xor_assign x y => arg x (fun a => arg y (fun b => sets x (map2 N.lxor a b)))
    | Enc x y => arg x (fun a => arg y (fun b => made (on_lanes m spec_enc a b)))
    | Dec x y => arg x (fun a => arg y (fun b => made (on_lanes m (fl_dec fl) a b)))
    | Enc_last x y => arg x (fun a => arg y (fun b => made (on_lanes m spec_enc_last a b)))
    | Dec_last x y => arg x (fun a => arg y (fun b => made (on_lanes m (fl_dec_last fl) a b)))
    | Chain_enc x ks => chain spec_enc x ks
    | Chain_dec x ks => chain (fl_dec fl) x ks
    | To_array x => arg x (fun a => says (Bytes a))
    | Store_to x dst => arg x (fun a => says (if Nat.ltb (List.length dst) n then Buffer true dst else Buffer false (a ++ skipn n dst)))
    | Is_zero x => arg x (fun a => says (Truth (if list_eq_dec N.eq_dec a (repeat 0 n) then true else false)))
    | Equal x y => arg x (fun a => arg y (fun b => says (Truth (if list_eq_dec N.eq_dec a b then true else false))))
    | Debug alt _ x => arg x (fun a => says (Text match g with One => hex_of alt (of_be a) | _ => tuple_text alt (map of_be (lanes m a)) end))
    | Encrypt e x => match nth_error vars e with Some (AEnc k rks) => arg x (fun a => made (each_block (fl_encrypt fl k rks) a)) | _ => None end
    | Decrypt d x => match nth_error vars d with Some (ADec k dks) => arg x (fun a => made (each_block (fl_decrypt fl k dks) a)) | _ => None end
    end.

  Definition library (vars : list avalue) (c : call) : option (answer * list avalue) :=
    let arg g x k := obind (ablock_at vars g x) k in
    let made l := Some (Made (List.length l), vars ++ l) in
    let says a := Some (a, vars) in
    match c with
    | On g c => library_on vars g c
    | From_u128 v => made [ABlock One (to_be 16 v)]
    | To_u128 x => arg One x (fun a => says (Number (of_be a)))
    | Mc x => arg One x (fun a => made [ABlock One (fl_mc fl a)])
    | Imc x => arg One x (fun a => made [ABlock One (fl_imc fl a)])
    | Print st alt _ x => arg One x (fun a => let v := of_be a in says (Text
        match st with
        | LowerHex => (if alt then "0x" else "") ++ numeral "0123456789abcdef" 16 32 v
        | UpperHex => (if alt then "0X" else "") ++ numeral "0123456789ABCDEF" 16 32 v
        | Binary => (if alt then "0b" else "") ++ numeral "01" 2 128 v
        | Display => hex_of alt v
        end%string))
    | X2_from_pair a b => arg One a (fun a => arg One b (fun b => made [ABlock Two (a ++ b)]))
    | X2_from_block a => arg One a (fun a => made [ABlock Two (a ++ a)])
    | X2_into_pair x => arg Two x (fun a => made (map (ABlock One) (lanes 2 a)))
    | X4_from_quad a b c d => arg One a (fun a => arg One b (fun b => arg One c (fun c => arg One d (fun d => made [ABlock Four (a ++ b ++ c ++ d)]))))
    | X4_from_pair a b => arg Two a (fun a => arg Two b (fun b => made [ABlock Four (a ++ b)]))
    | X4_from_block a => arg One a (fun a => made [ABlock Four (a ++ a ++ a ++ a)])
    | X4_from_x2 a => arg Two a (fun a => made [ABlock Four (a ++ a)])
    | X4_into_quad x => arg Four x (fun a => made (map (ABlock One) (lanes 4 a)))
    | X4_into_pair x => arg Four x (fun a => made [ABlock Two (firstn 32 a); ABlock Two (skipn 32 a)])
    | Enc_from k key => made [AEnc k (fl_keys fl k key)]
    | Dec_from k key => made [ADec k (reversed_keys (fl_imc fl) (fl_keys fl k key))]
    | Decrypter e => match nth_error vars e with Some (AEnc k rks) => made [ADec k (reversed_keys (fl_imc fl) rks)] | _ => None end
    | Encrypter d => match nth_error vars d with Some (ADec k dks) => made [AEnc k (reversed_keys (fl_mc fl) dks)] | _ => None end
    | Debug_key alt _ x =>
        match nth_error vars x with
        | Some (AEnc k rks) => says (Text (object_text alt (object_name true k) (map of_be rks)))
        | Some (ADec k dks) => says (Text (object_text alt (object_name false k) (map of_be dks)))
        | _ => None
        end
    | Copy x => obind (nth_error vars x) (fun v => made [v])
    end.
End Library.
