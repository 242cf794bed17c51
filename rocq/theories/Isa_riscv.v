(** TRUSTED.  Meaning of the RISC-V scalar-crypto (Zkne/Zknd) instructions behind the LLVM
    intrinsics used by src/aes_riscv64.rs and src/aes_riscv32.rs, from the Sail code of the
    "RISC-V Cryptography Extensions Volume I" specification.  Registers are [N]. *)
From Verif Require Import Word Fips197.
Open Scope N_scope.

(** getbyte(x, i) = x[8i+7 .. 8i]. *)
Definition getbyte (x i : N) : N := N.land (N.shiftr x (8 * i)) 255.

(** aes_mixcolumn_byte_fwd(so) = gfmul(so,3) @ so @ so @ gfmul(so,2), and the inverse one;
    [of_le] lists bytes from the least significant. *)
Definition mixcolumn_byte_fwd (so : N) : N := of_le [gmul 2 so; so; so; gmul 3 so].
Definition mixcolumn_byte_inv (so : N) : N := of_le [gmul 0xe so; gmul 9 so; gmul 0xd so; gmul 0xb so].

(** ** RV32: byte selected by [bs], substituted (and mixed), rotated into place, xored with rs1 *)
Definition rol32 (x k : N) : N := N.lor (shl 32 x k) (shr x (32 - k)).
Definition aes32esi (rs1 rs2 bs : N) : N := N.lxor rs1 (rol32 (sbox (getbyte rs2 bs)) (8 * bs)).
Definition aes32esmi (rs1 rs2 bs : N) : N :=
  N.lxor rs1 (rol32 (mixcolumn_byte_fwd (sbox (getbyte rs2 bs))) (8 * bs)).
Definition aes32dsi (rs1 rs2 bs : N) : N := N.lxor rs1 (rol32 (inv_sbox (getbyte rs2 bs)) (8 * bs)).
Definition aes32dsmi (rs1 rs2 bs : N) : N :=
  N.lxor rs1 (rol32 (mixcolumn_byte_inv (inv_sbox (getbyte rs2 bs))) (8 * bs)).

(** ** RV64 *)
(** aes_rv64_shiftrows_fwd / _inv (rs2, rs1): the low 64 bits of the shifted state, as bytes
    from the least significant. *)
Definition rv64_shiftrows_fwd (rs2 rs1 : N) : list N :=
  [getbyte rs1 0; getbyte rs1 5; getbyte rs2 2; getbyte rs2 7;
   getbyte rs1 4; getbyte rs2 1; getbyte rs2 6; getbyte rs1 3].
Definition rv64_shiftrows_inv (rs2 rs1 : N) : list N :=
  [getbyte rs1 0; getbyte rs2 5; getbyte rs2 2; getbyte rs1 7;
   getbyte rs1 4; getbyte rs1 1; getbyte rs2 6; getbyte rs2 3].

(** aes_mixcolumn_fwd / _inv on one column [s0 s1 s2 s3] (s0 least significant). *)
Definition mixcolumn (m0 m1 m2 m3 s0 s1 s2 s3 : N) : list N :=
  [N.lxor (N.lxor (gmul m0 s0) (gmul m1 s1)) (N.lxor (gmul m2 s2) (gmul m3 s3));
   N.lxor (N.lxor (gmul m3 s0) (gmul m0 s1)) (N.lxor (gmul m1 s2) (gmul m2 s3));
   N.lxor (N.lxor (gmul m2 s0) (gmul m3 s1)) (N.lxor (gmul m0 s2) (gmul m1 s3));
   N.lxor (N.lxor (gmul m1 s0) (gmul m2 s1)) (N.lxor (gmul m3 s2) (gmul m0 s3))].
Definition mixcolumn_fwd := mixcolumn 2 3 1 1.
Definition mixcolumn_inv := mixcolumn 0xe 0xb 0xd 9.
(** Two columns held in the 8 bytes of a doubleword. *)
Definition mix2 (m : N -> N -> N -> N -> list N) (l : list N) : list N :=
  match l with
  | [a; b; c; d; e; f; g; h] => m a b c d ++ m e f g h
  | _ => []
  end.

Definition aes64es (rs1 rs2 : N) : N := of_le (map sbox (rv64_shiftrows_fwd rs2 rs1)).
Definition aes64esm (rs1 rs2 : N) : N := of_le (mix2 mixcolumn_fwd (map sbox (rv64_shiftrows_fwd rs2 rs1))).
Definition aes64ds (rs1 rs2 : N) : N := of_le (map inv_sbox (rv64_shiftrows_inv rs2 rs1)).
Definition aes64dsm (rs1 rs2 : N) : N := of_le (mix2 mixcolumn_inv (map inv_sbox (rv64_shiftrows_inv rs2 rs1))).
Definition aes64im (rs1 : N) : N := of_le (mix2 mixcolumn_inv (to_le 8 rs1)).

(** aes_decode_rcon. *)
Definition decode_rcon (r : N) : N :=
  match r with
  | 0 => 0x01 | 1 => 0x02 | 2 => 0x04 | 3 => 0x08 | 4 => 0x10
  | 5 => 0x20 | 6 => 0x40 | 7 => 0x80 | 8 => 0x1b | 9 => 0x36 | _ => 0
  end.
(** aes_subword_fwd on a 32-bit word. *)
Definition subword_fwd (x : N) : N := of_le (map sbox (to_le 4 x)).

(** prev = rs1[63:32]; subwords = SubWord(prev); rotated right by 8 unless rnum = 0xA;
    xor rcon; duplicated into both halves. *)
Definition aes64ks1i (rs1 rnum : N) : N :=
  let sw := subword_fwd (shr rs1 32) in
  let r := N.lxor (if rnum =? 0xA then sw else rotr 32 sw 8) (decode_rcon rnum) in
  r + 2 ^ 32 * r.
(** w0 = rs1[63:32] ^ rs2[31:0]; w1 = w0 ^ rs2[63:32]; result w1 @ w0. *)
Definition aes64ks2 (rs1 rs2 : N) : N :=
  let w0 := N.lxor (shr rs1 32) (trunc 32 rs2) in
  let w1 := N.lxor w0 (shr rs2 32) in
  w0 + 2 ^ 32 * w1.
