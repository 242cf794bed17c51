(** SPECIFICATION.  Which values a program using the crate can hold.

    All block types and key objects have private fields, so a (safe) user obtains them only through
    the public functions.  [api_closed] says that five sets of values - AesBlock, AesBlockX2,
    AesBlockX4, and for each key size the Aes*Enc and Aes*Dec objects - are closed under every public
    function of the crate; the reachable values are the smallest such sets: a value is reachable when
    it belongs to every closed family.  ([reach_closed] in Proof_Lib: the reachable sets are
    themselves closed, so they are exactly the values some finite sequence of calls produces.) *)
From Verif Require Import Word Interface Fips197 Model_Lib.
Open Scope N_scope.

(** Functions that exist for each of the three block types. *)
Record ops_closed {T} (dbg : bool) (o : ops T) (P : T -> Prop) : Prop := {
  cl_new : forall b x, is_bytes (o_size o) b -> o_new o b = Ret x -> P x;
  cl_from : forall b x, is_bytes (o_size o) b -> o_from o b = Ret x -> P x;
  cl_from_ref : forall b x, is_bytes (o_size o) b -> from_ref o b = Ret x -> P x;
  cl_try_from : forall n s x, is_bytes n s -> try_from o dbg s = Ret (Ok x) -> P x;
  cl_zero : P (o_zero o);
  cl_default : P (default o);
  cl_and : forall x y, P x -> P y -> P (o_and o x y);
  cl_or : forall x y, P x -> P y -> P (o_or o x y);
  cl_xor : forall x y, P x -> P y -> P (o_xor o x y);
  cl_not : forall x, P x -> P (o_not o x);
  cl_and_assign : forall x y, P x -> P y -> P (and_assign o x y);
  cl_or_assign : forall x y, P x -> P y -> P (or_assign o x y);
  cl_xor_assign : forall x y, P x -> P y -> P (xor_assign o x y);
  cl_enc : forall x k, P x -> P k -> P (o_enc o x k);
  cl_dec : forall x k, P x -> P k -> P (o_dec o x k);
  cl_enc_last : forall x k, P x -> P k -> P (o_enc_last o x k);
  cl_dec_last : forall x k, P x -> P k -> P (o_dec_last o x k)
}.

Record api_closed (i : impl) (P1 : T1 i -> Prop) (P2 : T2 i -> Prop) (P4 : T4 i -> Prop)
       (PE : key_size -> enc_obj i -> Prop) (PD : key_size -> dec_obj i -> Prop) : Prop := {
  ac_1 : ops_closed (i_dbg i) (i_ops1 i) P1;
  ac_2 : ops_closed (i_dbg i) (i_ops2 i) P2;
  ac_4 : ops_closed (i_dbg i) (i_ops4 i) P4;
  ac_u128 : forall v x, v < 2 ^ 128 -> of_u128 (i_ops1 i) v = Ret x -> P1 x;
  ac_mc : forall x, P1 x -> P1 (e_mc (i_ext i) x);
  ac_imc : forall x, P1 x -> P1 (e_imc (i_ext i) x);
  ac_x2_of_pair : forall a b, P1 a -> P1 b -> P2 (x2_of_pair i (a, b));
  ac_x2_of_block : forall a, P1 a -> P2 (x2_of_block i a);
  ac_x2_to_pair : forall x, P2 x -> let '(a, b) := x2_to_pair i x in P1 a /\ P1 b;
  ac_x4_of_quad : forall a b c d, P1 a -> P1 b -> P1 c -> P1 d -> P4 (x4_of_quad i (a, b, c, d));
  ac_x4_of_pair : forall a b, P2 a -> P2 b -> P4 (x4_of_pair i (a, b));
  ac_x4_of_block : forall a, P1 a -> P4 (x4_of_block i a);
  ac_x4_of_x2 : forall a, P2 a -> P4 (x4_of_x2 i a);
  ac_x4_to_quad : forall x, P4 x -> let '(a, b, c, d) := x4_to_quad i x in P1 a /\ P1 b /\ P1 c /\ P1 d;
  ac_x4_to_pair : forall x, P4 x -> let '(a, b) := x4_to_pair i x in P2 a /\ P2 b;
  ac_chain_enc1 : forall x ks y, P1 x -> Forall P1 ks -> chain_enc1 i x ks = Ret y -> P1 y;
  ac_chain_dec1 : forall x ks y, P1 x -> Forall P1 ks -> chain_dec1 i x ks = Ret y -> P1 y;
  ac_chain_enc2 : forall x ks y, P2 x -> Forall P2 ks -> chain_enc2 i x ks = Ret y -> P2 y;
  ac_chain_dec2 : forall x ks y, P2 x -> Forall P2 ks -> chain_dec2 i x ks = Ret y -> P2 y;
  ac_chain_enc4 : forall x ks y, P4 x -> Forall P4 ks -> chain_enc4 i x ks = Ret y -> P4 y;
  ac_chain_dec4 : forall x ks y, P4 x -> Forall P4 ks -> chain_dec4 i x ks = Ret y -> P4 y;
  ac_enc_new : forall k key e, is_bytes (key_len k) key -> enc_new i k key = Ret e -> PE k e;
  ac_dec_new : forall k key d, is_bytes (key_len k) key -> dec_new i k key = Ret d -> PD k d;
  ac_decrypter : forall k e d, PE k e -> decrypter i k e = Ret d -> PD k d;
  ac_encrypter : forall k d e, PD k d -> encrypter i k d = Ret e -> PE k e;
  ac_encrypt_1 : forall k e x y, PE k e -> P1 x -> encrypt_block i k e x = Ret y -> P1 y;
  ac_encrypt_2 : forall k e x y, PE k e -> P2 x -> encrypt_2_blocks i k e x = Ret y -> P2 y;
  ac_encrypt_4 : forall k e x y, PE k e -> P4 x -> encrypt_4_blocks i k e x = Ret y -> P4 y;
  ac_decrypt_1 : forall k d x y, PD k d -> P1 x -> decrypt_block i k d x = Ret y -> P1 y;
  ac_decrypt_2 : forall k d x y, PD k d -> P2 x -> decrypt_2_blocks i k d x = Ret y -> P2 y;
  ac_decrypt_4 : forall k d x y, PD k d -> P4 x -> decrypt_4_blocks i k d x = Ret y -> P4 y
}.

Definition reach1 (i : impl) (x : T1 i) : Prop := forall P1 P2 P4 PE PD, api_closed i P1 P2 P4 PE PD -> P1 x.
Definition reach2 (i : impl) (x : T2 i) : Prop := forall P1 P2 P4 PE PD, api_closed i P1 P2 P4 PE PD -> P2 x.
Definition reach4 (i : impl) (x : T4 i) : Prop := forall P1 P2 P4 PE PD, api_closed i P1 P2 P4 PE PD -> P4 x.
Definition reachE (i : impl) (k : key_size) (e : enc_obj i) : Prop :=
  forall P1 P2 P4 PE PD, api_closed i P1 P2 P4 PE PD -> PE k e.
Definition reachD (i : impl) (k : key_size) (d : dec_obj i) : Prop :=
  forall P1 P2 P4 PE PD, api_closed i P1 P2 P4 PE PD -> PD k d.
