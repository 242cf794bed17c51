(** SPECIFICATION for C58: which items of the documented interface each call of a client (Spec_Client, C40) uses. *)
From Coq Require Import String.
From Verif Require Import Word Fips197 Spec_User Spec_Client Spec_Surface.
Open Scope string_scope.
Open Scope list_scope.

Definition key_sizes : list key_size := [K128; K192; K256].
Definition batch_name (g : group) : string := match g with One => "block" | Two => "2_blocks" | Four => "4_blocks" end.
(** The key size of a variable is not in the call: all are listed. *)
Definition uses_on (g : group) (c : wcall) : list item :=
  let b := Blk g in let n := group_len g in
  let binary t := [Impl t [b] b [("Output", b)]] in
  match c with
  | New _ => [Fn true b "new" [U8s n] b]
  | From_array _ => [Impl "From" [U8s n] b []]
  | From_ref _ => [Impl "From" [Ref (U8s n)] b []]
  | Try_from _ => [Impl "TryFrom" [Ref (Slice U8)] b [("Error", Usize)]]
  | Zero => [Fn false b "zero" [] b]
  | Default => [Impl "Default" [] b []]
  | And _ _ => binary "BitAnd" | Or _ _ => binary "BitOr" | Xor _ _ => binary "BitXor"
  | Not _ => [Impl "Not" [] b [("Output", b)]]
  | And_assign _ _ => [Impl "BitAndAssign" [b] b []] | Or_assign _ _ => [Impl "BitOrAssign" [b] b []] | Xor_assign _ _ => [Impl "BitXorAssign" [b] b []]
  | Enc _ _ => [Fn false b "enc" [b; b] b] | Dec _ _ => [Fn false b "dec" [b; b] b]
  | Enc_last _ _ => [Fn false b "enc_last" [b; b] b] | Dec_last _ _ => [Fn false b "dec_last" [b; b] b]
  | Chain_enc _ _ => [Fn false b "chain_enc" [b; Ref (Slice b)] b] | Chain_dec _ _ => [Fn false b "chain_dec" [b; Ref (Slice b)] b]
  | To_array _ => [Impl "From" [b] (U8s n) []]
  | Store_to _ _ => [Fn false b "store_to" [b; RefMut (Slice U8)] Unit]
  | Is_zero _ => [Fn false b "is_zero" [b] Bool]
  | Equal _ _ => [Impl "PartialEq" [b] b []]
  | Debug _ _ _ => [Impl "Debug" [] b []]
  | Encrypt _ _ => flat_map (fun k => [Impl "AesEncrypt" [Const (key_len k)] (EncT k) [("Decrypter", DecT k)];
                                       Fn false (EncT k) ("encrypt_" ++ batch_name g) [Ref (EncT k); b] b]) key_sizes
  | Decrypt _ _ => flat_map (fun k => [Impl "AesDecrypt" [Const (key_len k)] (DecT k) [("Encrypter", EncT k)];
                                       Fn false (DecT k) ("decrypt_" ++ batch_name g) [Ref (DecT k); b] b]) key_sizes
  end.
Definition uses (c : call) : list item :=
  let b1 := Blk One in let b2 := Blk Two in let b4 := Blk Four in
  match c with
  | On g c => uses_on g c
  | From_u128 _ => [Impl "From" [U128] b1 []] | To_u128 _ => [Impl "From" [b1] U128 []]
  | Mc _ => [Fn false b1 "mc" [b1] b1] | Imc _ => [Fn false b1 "imc" [b1] b1]
  | Print LowerHex _ _ _ => [Impl "LowerHex" [] b1 []] | Print UpperHex _ _ _ => [Impl "UpperHex" [] b1 []]
  | Print Binary _ _ _ => [Impl "Binary" [] b1 []] | Print Display _ _ _ => [Impl "Display" [] b1 []]
  | X2_from_pair _ _ => [Impl "From" [Tup2 b1 b1] b2 []] | X2_from_block _ => [Impl "From" [b1] b2 []] | X2_into_pair _ => [Impl "From" [b2] (Tup2 b1 b1) []]
  | X4_from_quad _ _ _ _ => [Impl "From" [Tup4 b1 b1 b1 b1] b4 []] | X4_from_pair _ _ => [Impl "From" [Tup2 b2 b2] b4 []]
  | X4_from_block _ => [Impl "From" [b1] b4 []] | X4_from_x2 _ => [Impl "From" [b2] b4 []]
  | X4_into_quad _ => [Impl "From" [b4] (Tup4 b1 b1 b1 b1) []] | X4_into_pair _ => [Impl "From" [b4] (Tup2 b2 b2) []]
  | Enc_from k _ => [Impl "From" [U8s (key_len k)] (EncT k) []] | Dec_from k _ => [Impl "From" [U8s (key_len k)] (DecT k) []]
  | Decrypter _ => map (fun k => Fn false (EncT k) "decrypter" [Ref (EncT k)] (DecT k)) key_sizes
  | Encrypter _ => map (fun k => Fn false (DecT k) "encrypter" [Ref (DecT k)] (EncT k)) key_sizes
  | Debug_key _ _ _ => flat_map (fun k => [Impl "Debug" [] (EncT k) []; Impl "Debug" [] (DecT k) []]) key_sizes
  | Copy _ => flat_map (fun g => [Impl "Copy" [] (Blk g) []; Impl "Clone" [] (Blk g) []]) [One; Two; Four] ++
              flat_map (fun k => [Impl "Clone" [] (EncT k) []; Impl "Clone" [] (DecT k) []]) key_sizes
  end.
