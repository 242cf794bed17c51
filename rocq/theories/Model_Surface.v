(** The declarations of the crate, file by file: types with their derives and fields, trait implementations, functions with visibility and
    signature - everything but the bodies, which are in the other models.  And what the modules need of each other, by name. *)
From Coq Require Import String.
From Verif Require Import Word Fips197 Spec_User Spec_Cfg Model_Cfg Spec_Surface.
Open Scope string_scope.
Open Scope list_scope.

(* Rust's visibilities ([pub], [pub(crate)], [pub(super)] as in aes_x86.rs:10, 66, 191, aes_arm.rs:108). *)
Inductive visibility := Pub | Pub_crate | Pub_super | Private.
(** A source file that declares one block type. *)
(* One of aes_x86.rs ... aesdefault_x4.rs: type, derives, fields, trait implementations, functions. *)
Record file : Type := File { f_type : ty; f_derives : list string; f_fields : list (visibility * ty); f_impls : list item; f_fns : list (visibility * item) }.

(** src/aes_x86.rs *)
(* aes_x86.rs:7-10 (struct), the impl headers and function signatures at the lines given. *)
Definition aes_x86 : file :=
  File (Blk One)
    ["Copy"; "Clone"]  (* 7 *)
    [(Pub_super, Simd "__m128i")]  (* 10 *)
    [Impl "PartialEq" [Blk One] (Blk One) [] (* 12 *);
     Impl "Eq" [] (Blk One) [] (* 19 *);
     Impl "From" [U8s 16] (Blk One) [] (* 21 *);
     Impl "BitAnd" [Blk One] (Blk One) [("Output", Blk One)] (* 28 *);
     Impl "BitOr" [Blk One] (Blk One) [("Output", Blk One)] (* 37 *);
     Impl "BitXor" [Blk One] (Blk One) [("Output", Blk One)] (* 46 *);
     Impl "Not" [] (Blk One) [("Output", Blk One)] (* 55 *)]
    [(Pub, Fn true (Blk One) "new" [U8s 16] (Blk One)) (* 66 *);
     (Pub, Fn false (Blk One) "store_to" [Blk One; RefMut (Slice U8)] (Unit)) (* 72 *);
     (Pub, Fn false (Blk One) "zero" [] (Blk One)) (* 78 *);
     (Pub, Fn false (Blk One) "is_zero" [Blk One] (Bool)) (* 84 *);
     (Pub, Fn false (Blk One) "enc" [Blk One; Blk One] (Blk One)) (* 90 *);
     (Pub, Fn false (Blk One) "dec" [Blk One; Blk One] (Blk One)) (* 96 *);
     (Pub, Fn false (Blk One) "enc_last" [Blk One; Blk One] (Blk One)) (* 102 *);
     (Pub, Fn false (Blk One) "dec_last" [Blk One; Blk One] (Blk One)) (* 108 *);
     (Pub, Fn false (Blk One) "mc" [Blk One] (Blk One)) (* 114 *);
     (Pub, Fn false (Blk One) "imc" [Blk One] (Blk One)) (* 125 *);
     (Pub_super, Fn false (Free) "keygen_128" [U8s 16] (Array (Blk One) 11)) (* 191 *);
     (Pub_super, Fn false (Free) "keygen_192" [U8s 24] (Array (Blk One) 13)) (* 209 *);
     (Pub_super, Fn false (Free) "keygen_256" [U8s 32] (Array (Blk One) 15)) (* 227 *)].

(** src/aes_arm.rs *)
(* aes_arm.rs:8-11 (struct), the impl headers and function signatures at the lines given. *)
Definition aes_arm : file :=
  File (Blk One)
    ["Copy"; "Clone"]  (* 8 *)
    [(Private, Simd "uint8x16_t")]  (* 11 *)
    [Impl "PartialEq" [Blk One] (Blk One) [] (* 13 *);
     Impl "Eq" [] (Blk One) [] (* 20 *);
     Impl "From" [U8s 16] (Blk One) [] (* 22 *);
     Impl "BitAnd" [Blk One] (Blk One) [("Output", Blk One)] (* 29 *);
     Impl "BitOr" [Blk One] (Blk One) [("Output", Blk One)] (* 38 *);
     Impl "BitXor" [Blk One] (Blk One) [("Output", Blk One)] (* 47 *);
     Impl "Not" [] (Blk One) [("Output", Blk One)] (* 56 *)]
    [(Pub, Fn true (Blk One) "new" [U8s 16] (Blk One)) (* 67 *);
     (Pub, Fn false (Blk One) "store_to" [Blk One; RefMut (Slice U8)] (Unit)) (* 73 *);
     (Pub, Fn false (Blk One) "zero" [] (Blk One)) (* 79 *);
     (Pub, Fn false (Blk One) "is_zero" [Blk One] (Bool)) (* 85 *);
     (Private, Fn false (Blk One) "aese" [Blk One; Blk One] (Blk One)) (* 103 *);
     (Pub_crate, Fn false (Blk One) "pre_enc" [Blk One; Blk One] (Blk One)) (* 108 *);
     (Pub, Fn false (Blk One) "enc" [Blk One; Blk One] (Blk One)) (* 114 *);
     (Private, Fn false (Blk One) "aesd" [Blk One; Blk One] (Blk One)) (* 119 *);
     (Pub_crate, Fn false (Blk One) "pre_dec" [Blk One; Blk One] (Blk One)) (* 124 *);
     (Pub, Fn false (Blk One) "dec" [Blk One; Blk One] (Blk One)) (* 130 *);
     (Pub, Fn false (Blk One) "enc_last" [Blk One; Blk One] (Blk One)) (* 136 *);
     (Pub, Fn false (Blk One) "dec_last" [Blk One; Blk One] (Blk One)) (* 142 *);
     (Pub, Fn false (Blk One) "mc" [Blk One] (Blk One)) (* 148 *);
     (Pub, Fn false (Blk One) "imc" [Blk One] (Blk One)) (* 154 *);
     (Pub_super, Fn false (Free) "keygen_128" [U8s 16] (Array (Blk One) 11)) (* 171 *);
     (Pub_super, Fn false (Free) "keygen_192" [U8s 24] (Array (Blk One) 13)) (* 194 *);
     (Pub_super, Fn false (Free) "keygen_256" [U8s 32] (Array (Blk One) 15)) (* 224 *)].

(** src/aes_riscv64.rs *)
(* aes_riscv64.rs:21-24 (struct), the impl headers and function signatures at the lines given. *)
Definition aes_riscv64 : file :=
  File (Blk One)
    ["Copy"; "Clone"; "Eq"; "PartialEq"]  (* 21 *)
    [(Private, U64); (Private, U64)]  (* 24 *)
    [Impl "From" [U8s 16] (Blk One) [] (* 26 *);
     Impl "BitAnd" [Blk One] (Blk One) [("Output", Blk One)] (* 33 *);
     Impl "BitOr" [Blk One] (Blk One) [("Output", Blk One)] (* 42 *);
     Impl "BitXor" [Blk One] (Blk One) [("Output", Blk One)] (* 51 *);
     Impl "Not" [] (Blk One) [("Output", Blk One)] (* 60 *)]
    [(Pub, Fn true (Blk One) "new" [U8s 16] (Blk One)) (* 71 *);
     (Pub, Fn false (Blk One) "store_to" [Blk One; RefMut (Slice U8)] (Unit)) (* 76 *);
     (Pub, Fn false (Blk One) "zero" [] (Blk One)) (* 84 *);
     (Pub, Fn false (Blk One) "is_zero" [Blk One] (Bool)) (* 90 *);
     (Pub, Fn false (Blk One) "enc" [Blk One; Blk One] (Blk One)) (* 96 *);
     (Pub, Fn false (Blk One) "dec" [Blk One; Blk One] (Blk One)) (* 107 *);
     (Pub, Fn false (Blk One) "enc_last" [Blk One; Blk One] (Blk One)) (* 118 *);
     (Pub, Fn false (Blk One) "dec_last" [Blk One; Blk One] (Blk One)) (* 129 *);
     (Pub, Fn false (Blk One) "mc" [Blk One] (Blk One)) (* 140 *);
     (Pub, Fn false (Blk One) "imc" [Blk One] (Blk One)) (* 149 *);
     (Pub_super, Fn false (Free) "keygen_128" [U8s 16] (Array (Blk One) 11)) (* 180 *);
     (Pub_super, Fn false (Free) "keygen_192" [U8s 24] (Array (Blk One) 13)) (* 201 *);
     (Pub_super, Fn false (Free) "keygen_256" [U8s 32] (Array (Blk One) 15)) (* 225 *)].

(** src/aes_riscv32.rs *)
(* aes_riscv32.rs:4-7 (struct), the impl headers and function signatures at the lines given. *)
Definition aes_riscv32 : file :=
  File (Blk One)
    ["Eq"; "PartialEq"; "Copy"; "Clone"]  (* 4 *)
    [(Private, U32); (Private, U32); (Private, U32); (Private, U32)]  (* 7 *)
    [Impl "From" [U8s 16] (Blk One) [] (* 42 *);
     Impl "BitAnd" [Blk One] (Blk One) [("Output", Blk One)] (* 49 *);
     Impl "BitOr" [Blk One] (Blk One) [("Output", Blk One)] (* 63 *);
     Impl "BitXor" [Blk One] (Blk One) [("Output", Blk One)] (* 77 *);
     Impl "Not" [] (Blk One) [("Output", Blk One)] (* 91 *)]
    [(Pub, Fn true (Blk One) "new" [U8s 16] (Blk One)) (* 102 *);
     (Pub, Fn false (Blk One) "store_to" [Blk One; RefMut (Slice U8)] (Unit)) (* 107 *);
     (Pub, Fn false (Blk One) "zero" [] (Blk One)) (* 115 *);
     (Pub, Fn false (Blk One) "is_zero" [Blk One] (Bool)) (* 121 *);
     (Pub_crate, Fn false (Blk One) "pre_enc" [Blk One; Blk One] (Blk One)) (* 126 *);
     (Pub, Fn false (Blk One) "enc" [Blk One; Blk One] (Blk One)) (* 132 *);
     (Private, Fn false (Blk One) "pre_enc_last" [Blk One; Blk One] (Blk One)) (* 137 *);
     (Pub, Fn false (Blk One) "enc_last" [Blk One; Blk One] (Blk One)) (* 143 *);
     (Pub_crate, Fn false (Blk One) "pre_dec" [Blk One; Blk One] (Blk One)) (* 148 *);
     (Pub, Fn false (Blk One) "dec" [Blk One; Blk One] (Blk One)) (* 154 *);
     (Private, Fn false (Blk One) "pre_dec_last" [Blk One; Blk One] (Blk One)) (* 159 *);
     (Pub, Fn false (Blk One) "dec_last" [Blk One; Blk One] (Blk One)) (* 165 *);
     (Pub, Fn false (Blk One) "mc" [Blk One] (Blk One)) (* 171 *);
     (Pub, Fn false (Blk One) "imc" [Blk One] (Blk One)) (* 177 *);
     (Pub_super, Fn false (Free) "keygen_128" [U8s 16] (Array (Blk One) 11)) (* 196 *);
     (Pub_super, Fn false (Free) "keygen_192" [U8s 24] (Array (Blk One) 13)) (* 216 *);
     (Pub_super, Fn false (Free) "keygen_256" [U8s 32] (Array (Blk One) 15)) (* 243 *)].

(** src/aes_bitslice.rs *)
(* aes_bitslice.rs:230-233 (struct), the impl headers and function signatures at the lines given. *)
Definition aes_bitslice : file :=
  File (Blk One)
    ["Copy"; "Clone"; "PartialEq"; "Eq"]  (* 230 *)
    [(Private, U128)]  (* 233 *)
    [Impl "From" [U8s 16] (Blk One) [] (* 235 *);
     Impl "BitAnd" [Blk One] (Blk One) [("Output", Blk One)] (* 242 *);
     Impl "BitOr" [Blk One] (Blk One) [("Output", Blk One)] (* 251 *);
     Impl "BitXor" [Blk One] (Blk One) [("Output", Blk One)] (* 260 *);
     Impl "Not" [] (Blk One) [("Output", Blk One)] (* 269 *)]
    [(Pub, Fn true (Blk One) "new" [U8s 16] (Blk One)) (* 280 *);
     (Pub, Fn false (Blk One) "store_to" [Blk One; RefMut (Slice U8)] (Unit)) (* 285 *);
     (Pub, Fn false (Blk One) "zero" [] (Blk One)) (* 291 *);
     (Pub, Fn false (Blk One) "is_zero" [Blk One] (Bool)) (* 297 *);
     (Pub, Fn false (Blk One) "enc" [Blk One; Blk One] (Blk One)) (* 303 *);
     (Pub, Fn false (Blk One) "dec" [Blk One; Blk One] (Blk One)) (* 309 *);
     (Pub, Fn false (Blk One) "enc_last" [Blk One; Blk One] (Blk One)) (* 315 *);
     (Pub, Fn false (Blk One) "dec_last" [Blk One; Blk One] (Blk One)) (* 321 *);
     (Pub, Fn false (Blk One) "mc" [Blk One] (Blk One)) (* 327 *);
     (Pub, Fn false (Blk One) "imc" [Blk One] (Blk One)) (* 333 *);
     (Pub_super, Fn false (Free) "keygen_128" [U8s 16] (Array (Blk One) 11)) (* 340 *);
     (Pub_super, Fn false (Free) "keygen_192" [U8s 24] (Array (Blk One) 13)) (* 358 *);
     (Pub_super, Fn false (Free) "keygen_256" [U8s 32] (Array (Blk One) 15)) (* 383 *)].

(** src/aes_table_based.rs *)
(* aes_table_based.rs:4-7 (struct), the impl headers and function signatures at the lines given. *)
Definition aes_table_based : file :=
  File (Blk One)
    ["Copy"; "Clone"; "PartialEq"; "Eq"]  (* 4 *)
    [(Private, U32); (Private, U32); (Private, U32); (Private, U32)]  (* 7 *)
    [Impl "From" [U8s 16] (Blk One) [] (* 25 *);
     Impl "BitAnd" [Blk One] (Blk One) [("Output", Blk One)] (* 32 *);
     Impl "BitOr" [Blk One] (Blk One) [("Output", Blk One)] (* 46 *);
     Impl "BitXor" [Blk One] (Blk One) [("Output", Blk One)] (* 60 *);
     Impl "Not" [] (Blk One) [("Output", Blk One)] (* 74 *)]
    [(Pub, Fn true (Blk One) "new" [U8s 16] (Blk One)) (* 85 *);
     (Pub, Fn false (Blk One) "store_to" [Blk One; RefMut (Slice U8)] (Unit)) (* 95 *);
     (Pub, Fn false (Blk One) "zero" [] (Blk One)) (* 104 *);
     (Pub, Fn false (Blk One) "is_zero" [Blk One] (Bool)) (* 110 *);
     (Pub, Fn false (Blk One) "enc" [Blk One; Blk One] (Blk One)) (* 116 *);
     (Pub, Fn false (Blk One) "enc_last" [Blk One; Blk One] (Blk One)) (* 127 *);
     (Pub, Fn false (Blk One) "dec" [Blk One; Blk One] (Blk One)) (* 154 *);
     (Pub, Fn false (Blk One) "dec_last" [Blk One; Blk One] (Blk One)) (* 165 *);
     (Pub, Fn false (Blk One) "mc" [Blk One] (Blk One)) (* 192 *);
     (Pub, Fn false (Blk One) "imc" [Blk One] (Blk One)) (* 215 *);
     (Pub_super, Fn false (Free) "keygen_128" [U8s 16] (Array (Blk One) 11)) (* 277 *);
     (Pub_super, Fn false (Free) "keygen_192" [U8s 24] (Array (Blk One) 13)) (* 295 *);
     (Pub_super, Fn false (Free) "keygen_256" [U8s 32] (Array (Blk One) 15)) (* 331 *)].

(** src/aesni_x2.rs *)
(* aesni_x2.rs:9-12 (struct), the impl headers and function signatures at the lines given. *)
Definition aesni_x2 : file :=
  File (Blk Two)
    ["Copy"; "Clone"]  (* 9 *)
    [(Pub_super, Simd "__m256i")]  (* 12 *)
    [Impl "PartialEq" [Blk Two] (Blk Two) [] (* 14 *);
     Impl "Eq" [] (Blk Two) [] (* 21 *);
     Impl "From" [U8s 32] (Blk Two) [] (* 23 *);
     Impl "From" [Tup2 (Blk One) (Blk One)] (Blk Two) [] (* 30 *);
     Impl "From" [Blk One] (Blk Two) [] (* 37 *);
     Impl "From" [Blk Two] (Tup2 (Blk One) (Blk One)) [] (* 44 *);
     Impl "BitAnd" [Blk Two] (Blk Two) [("Output", Blk Two)] (* 56 *);
     Impl "BitOr" [Blk Two] (Blk Two) [("Output", Blk Two)] (* 64 *);
     Impl "BitXor" [Blk Two] (Blk Two) [("Output", Blk Two)] (* 73 *);
     Impl "Not" [] (Blk Two) [("Output", Blk Two)] (* 82 *)]
    [(Pub, Fn true (Blk Two) "new" [U8s 32] (Blk Two)) (* 93 *);
     (Pub, Fn false (Blk Two) "store_to" [Blk Two; RefMut (Slice U8)] (Unit)) (* 98 *);
     (Pub, Fn false (Blk Two) "zero" [] (Blk Two)) (* 104 *);
     (Pub, Fn false (Blk Two) "is_zero" [Blk Two] (Bool)) (* 110 *);
     (Pub, Fn false (Blk Two) "enc" [Blk Two; Blk Two] (Blk Two)) (* 116 *);
     (Pub, Fn false (Blk Two) "dec" [Blk Two; Blk Two] (Blk Two)) (* 122 *);
     (Pub, Fn false (Blk Two) "enc_last" [Blk Two; Blk Two] (Blk Two)) (* 128 *);
     (Pub, Fn false (Blk Two) "dec_last" [Blk Two; Blk Two] (Blk Two)) (* 134 *)].

(** src/aesni_x4.rs *)
(* aesni_x4.rs:10-13 (struct), the impl headers and function signatures at the lines given. *)
Definition aesni_x4 : file :=
  File (Blk Four)
    ["Copy"; "Clone"]  (* 10 *)
    [(Private, Simd "__m512i")]  (* 13 *)
    [Impl "PartialEq" [Blk Four] (Blk Four) [] (* 15 *);
     Impl "Eq" [] (Blk Four) [] (* 22 *);
     Impl "From" [U8s 64] (Blk Four) [] (* 24 *);
     Impl "From" [Tup4 (Blk One) (Blk One) (Blk One) (Blk One)] (Blk Four) [] (* 31 *);
     Impl "From" [Blk One] (Blk Four) [] (* 44 *);
     Impl "From" [Blk Four] (Tup4 (Blk One) (Blk One) (Blk One) (Blk One)) [] (* 51 *);
     Impl "From" [Tup2 (Blk Two) (Blk Two)] (Blk Four) [] (* 65 *);
     Impl "From" [Blk Two] (Blk Four) [] (* 72 *);
     Impl "From" [Blk Four] (Tup2 (Blk Two) (Blk Two)) [] (* 79 *);
     Impl "BitAnd" [Blk Four] (Blk Four) [("Output", Blk Four)] (* 91 *);
     Impl "BitOr" [Blk Four] (Blk Four) [("Output", Blk Four)] (* 100 *);
     Impl "BitXor" [Blk Four] (Blk Four) [("Output", Blk Four)] (* 109 *);
     Impl "Not" [] (Blk Four) [("Output", Blk Four)] (* 118 *)]
    [(Pub, Fn true (Blk Four) "new" [U8s 64] (Blk Four)) (* 129 *);
     (Pub, Fn false (Blk Four) "store_to" [Blk Four; RefMut (Slice U8)] (Unit)) (* 134 *);
     (Pub, Fn false (Blk Four) "zero" [] (Blk Four)) (* 140 *);
     (Pub, Fn false (Blk Four) "is_zero" [Blk Four] (Bool)) (* 146 *);
     (Pub, Fn false (Blk Four) "enc" [Blk Four; Blk Four] (Blk Four)) (* 152 *);
     (Pub, Fn false (Blk Four) "dec" [Blk Four; Blk Four] (Blk Four)) (* 158 *);
     (Pub, Fn false (Blk Four) "enc_last" [Blk Four; Blk Four] (Blk Four)) (* 164 *);
     (Pub, Fn false (Blk Four) "dec_last" [Blk Four; Blk Four] (Blk Four)) (* 170 *)].

(** src/aesdefault_x2.rs *)
(* aesdefault_x2.rs:5-8 (struct), the impl headers and function signatures at the lines given. *)
Definition aesdefault_x2 : file :=
  File (Blk Two)
    ["Copy"; "Clone"; "PartialEq"; "Eq"]  (* 5 *)
    [(Private, Blk One); (Private, Blk One)]  (* 8 *)
    [Impl "From" [U8s 32] (Blk Two) [] (* 10 *);
     Impl "From" [Tup2 (Blk One) (Blk One)] (Blk Two) [] (* 17 *);
     Impl "From" [Blk One] (Blk Two) [] (* 24 *);
     Impl "From" [Blk Two] (Tup2 (Blk One) (Blk One)) [] (* 31 *);
     Impl "BitAnd" [Blk Two] (Blk Two) [("Output", Blk Two)] (* 38 *);
     Impl "BitOr" [Blk Two] (Blk Two) [("Output", Blk Two)] (* 47 *);
     Impl "BitXor" [Blk Two] (Blk Two) [("Output", Blk Two)] (* 56 *);
     Impl "Not" [] (Blk Two) [("Output", Blk Two)] (* 65 *)]
    [(Pub, Fn true (Blk Two) "new" [U8s 32] (Blk Two)) (* 76 *);
     (Pub, Fn false (Blk Two) "store_to" [Blk Two; RefMut (Slice U8)] (Unit)) (* 84 *);
     (Pub, Fn false (Blk Two) "zero" [] (Blk Two)) (* 91 *);
     (Pub, Fn false (Blk Two) "is_zero" [Blk Two] (Bool)) (* 97 *);
     (Pub, Fn false (Blk Two) "enc" [Blk Two; Blk Two] (Blk Two)) (* 103 *);
     (Pub, Fn false (Blk Two) "dec" [Blk Two; Blk Two] (Blk Two)) (* 109 *);
     (Pub, Fn false (Blk Two) "enc_last" [Blk Two; Blk Two] (Blk Two)) (* 115 *);
     (Pub, Fn false (Blk Two) "dec_last" [Blk Two; Blk Two] (Blk Two)) (* 121 *)].

(** src/aesdefault_x4.rs *)
(* aesdefault_x4.rs:5-8 (struct), the impl headers and function signatures at the lines given. *)
Definition aesdefault_x4 : file :=
  File (Blk Four)
    ["Copy"; "Clone"; "PartialEq"; "Eq"]  (* 5 *)
    [(Private, Blk Two); (Private, Blk Two)]  (* 8 *)
    [Impl "From" [U8s 64] (Blk Four) [] (* 10 *);
     Impl "From" [Tup4 (Blk One) (Blk One) (Blk One) (Blk One)] (Blk Four) [] (* 17 *);
     Impl "From" [Tup2 (Blk Two) (Blk Two)] (Blk Four) [] (* 24 *);
     Impl "From" [Blk One] (Blk Four) [] (* 31 *);
     Impl "From" [Blk Two] (Blk Four) [] (* 38 *);
     Impl "From" [Blk Four] (Tup4 (Blk One) (Blk One) (Blk One) (Blk One)) [] (* 45 *);
     Impl "From" [Blk Four] (Tup2 (Blk Two) (Blk Two)) [] (* 54 *);
     Impl "BitAnd" [Blk Four] (Blk Four) [("Output", Blk Four)] (* 61 *);
     Impl "BitOr" [Blk Four] (Blk Four) [("Output", Blk Four)] (* 70 *);
     Impl "BitXor" [Blk Four] (Blk Four) [("Output", Blk Four)] (* 79 *);
     Impl "Not" [] (Blk Four) [("Output", Blk Four)] (* 88 *)]
    [(Pub, Fn true (Blk Four) "new" [U8s 64] (Blk Four)) (* 99 *);
     (Pub, Fn false (Blk Four) "store_to" [Blk Four; RefMut (Slice U8)] (Unit)) (* 107 *);
     (Pub, Fn false (Blk Four) "zero" [] (Blk Four)) (* 114 *);
     (Pub, Fn false (Blk Four) "is_zero" [Blk Four] (Bool)) (* 120 *);
     (Pub, Fn false (Blk Four) "enc" [Blk Four; Blk Four] (Blk Four)) (* 126 *);
     (Pub, Fn false (Blk Four) "dec" [Blk Four; Blk Four] (Blk Four)) (* 132 *);
     (Pub, Fn false (Blk Four) "enc_last" [Blk Four; Blk Four] (Blk Four)) (* 138 *);
     (Pub, Fn false (Blk Four) "dec_last" [Blk Four; Blk Four] (Blk Four)) (* 144 *)].

(** ** src/lib.rs *)
(** lib.rs:156-213 impl_common_ops!(AesBlock, 16, AesBlockX2, 32, AesBlockX4, 64) *)
Definition common_ops (g : group) (key_len : nat) : list item :=
  let b := Blk g in
  [Impl "Default" [] b []                                          (* 158 *);
   Impl "From" [Ref (U8s key_len)] b []                            (* 165 *);
   Impl "TryFrom" [Ref (Slice U8)] b [("Error", Usize)]            (* 172-173 *);
   Impl "From" [b] (U8s key_len) []                                (* 181 *);
   Impl "BitAndAssign" [b] b []                                    (* 190 *);
   Impl "BitOrAssign" [b] b []                                     (* 197 *);
   Impl "BitXorAssign" [b] b []                                    (* 204 *)].
(** lib.rs:366-426 declare_chain!: the same two signatures in both variants *)
Definition chain_fns (g : group) : list item :=
  [Fn false (Blk g) "chain_enc" [Blk g; Ref (Slice (Blk g))] (Blk g)   (* 372, 400 *);
   Fn false (Blk g) "chain_dec" [Blk g; Ref (Slice (Blk g))] (Blk g)   (* 383, 411 *)].
(** lib.rs:348-366 impl_pre_encdec!(AesBlockX2, AesBlockX4); only with the variant that uses them.  Private at the crate root is visible in the whole crate. *)
Definition pre_fns (g : group) : list (visibility * item) :=
  [(Pub_crate, Fn false (Blk g) "pre_enc" [Blk g; Blk g] (Blk g)); (Pub_crate, Fn false (Blk g) "pre_dec" [Blk g; Blk g] (Blk g))].
(** lib.rs:430-522 implement_aes!($enc_name, $dec_name, $key_len, $nr, $keygen), with the traits of lib.rs:283-317 *)
Definition aes_types (k : key_size) (key_len nr : nat) : list item * decl :=
  let e := EncT k in let d := DecT k in
  ([Impl "Debug" [] e []; Impl "Clone" [] e [];
    Impl "From" [U8s key_len] e [];
    Impl "Debug" [] d []; Impl "Clone" [] d [];
    Impl "From" [U8s key_len] d [];
    Impl "AesEncrypt" [Const key_len] e [("Decrypter", d)];
    Fn false e "decrypter" [Ref e] d;
    Fn false e "encrypt_block" [Ref e; Blk One] (Blk One);
    Fn false e "encrypt_2_blocks" [Ref e; Blk Two] (Blk Two);
    Fn false e "encrypt_4_blocks" [Ref e; Blk Four] (Blk Four);
    Impl "AesDecrypt" [Const key_len] d [("Encrypter", e)];
    Fn false d "encrypter" [Ref d] e;
    Fn false d "decrypt_block" [Ref d; Blk One] (Blk One);
    Fn false d "decrypt_2_blocks" [Ref d; Blk Two] (Blk Two);
    Fn false d "decrypt_4_blocks" [Ref d; Blk Four] (Blk Four)],
   Decl false [Array (Blk One) (nr + 1)]).
(** lib.rs:520-522 *)
Definition lib_aes (k : key_size) : list item * decl :=
  match k with K128 => aes_types K128 16 10 | K192 => aes_types K192 24 12 | K256 => aes_types K256 32 14 end.
(** lib.rs:142-154 (u128), 156-213, 215-277 (formatting), 366-522 *)
Definition lib_items : list item :=
  [Impl "From" [U128] (Blk One) []; Impl "From" [Blk One] U128 []] ++
  common_ops One 16 ++ common_ops Two 32 ++ common_ops Four 64 ++
  [Impl "Debug" [] (Blk One) []; Impl "Display" [] (Blk One) []; Impl "Binary" [] (Blk One) []; Impl "LowerHex" [] (Blk One) [];
   Impl "UpperHex" [] (Blk One) []; Impl "Debug" [] (Blk Two) []; Impl "Debug" [] (Blk Four) []] ++
  chain_fns One ++ chain_fns Two ++ chain_fns Four ++ fst (lib_aes K128) ++ fst (lib_aes K192) ++ fst (lib_aes K256).

(** ** A build *)
(** lib.rs:44-121: the modules it consists of *)
Definition block_file (c : cfg) : string * file :=
  match select_block c with
  | BX86 => ("aes_x86", aes_x86) | BNeon => ("aes_arm", aes_arm) | BRv64 => ("aes_riscv64", aes_riscv64) | BRv32 => ("aes_riscv32", aes_riscv32)
  | BBitslice => ("aes_bitslice", aes_bitslice) | BTable => ("aes_table_based", aes_table_based)
  end.
(* lib.rs:94-105 *)
Definition x2_file (c : cfg) : string * file := match select_x2 c with WVaes => ("aesni_x2", aesni_x2) | WDefault => ("aesdefault_x2", aesdefault_x2) end.
(* lib.rs:108-121 *)
Definition x4_file (c : cfg) : string * file := match select_x4 c with WVaes => ("aesni_x4", aesni_x4) | WDefault => ("aesdefault_x4", aesdefault_x4) end.
(* lib.rs:44-121 *)
Definition files (c : cfg) : list (string * file) := [block_file c; x2_file c; x4_file c].

(** What #[derive] adds (aes_x86.rs:7 and the like) *)
Definition derived (t : ty) (name : string) : item := Impl name (if String.eqb name "PartialEq" then [t] else []) t [].
(* Library part: what rustc makes of the declarations of a file such as aes_x86.rs. *)
Definition file_items (f : file) : list (visibility * item) :=
  map (fun d => (Pub, derived (f_type f) d)) (f_derives f) ++ map (fun i => (Pub, i)) (f_impls f) ++ f_fns f.
(* All items of a build (lib.rs:44-121, 142-522). *)
Definition crate_items (c : cfg) : list (visibility * item) :=
  flat_map (fun nf => file_items (snd nf)) (files c) ++ map (fun i => (Pub, i)) lib_items ++
  (if select_pre_chain c then pre_fns Two ++ pre_fns Four else []).
(* What other crates can name: lib.rs:50-119 re-export the types only, so [pub] functions of the types and all trait implementations. *)
Definition exported (v : visibility * item) : bool := match fst v with Pub => true | _ => false end.
(* The fields and derives rustc looks at for auto traits and constant patterns (aes_x86.rs:7-10 and the like, lib.rs:430-449). *)
Definition file_decl (f : file) : decl :=
  Decl (existsb (String.eqb "PartialEq") (f_derives f) && existsb (String.eqb "Eq") (f_derives f)) (map snd (f_fields f)).
(* As above. *)
Definition decl_of (c : cfg) (t : ty) : option decl :=
  match t with
  | Blk One => Some (file_decl (snd (block_file c)))
  | Blk Two => Some (file_decl (snd (x2_file c)))
  | Blk Four => Some (file_decl (snd (x4_file c)))
  | EncT k | DecT k => Some (snd (lib_aes k))
  | _ => None
  end.
(* The interface of the crate in a build: lib.rs with the modules it selects (lib.rs:44-121). *)
Definition interface_of (c : cfg) : interface := Interface (map snd (filter exported (crate_items c))) (decl_of c).

(** ** What the modules need of each other *)
Inductive need : Type :=
| Item (i : item)                  (* a function or trait implementation *)
| Module (name : string)           (* a path [crate::name::...] (aesni_x2.rs:7, aesni_x4.rs:7-8) *)
| Field (of f : ty).               (* a field of another module's type, by position *)
(* The operations lib.rs:142-277 and 366-424 and the default wide types use of a block type. *)
Definition used_of (g : group) : list need :=
  let b := Blk g in
  map Item ([Impl "Copy" [] b []; Impl "From" [U8s (group_len g)] b []; Fn false b "zero" [] b;
             Fn false b "store_to" [b; RefMut (Slice U8)] Unit; Impl "BitAnd" [b] b [("Output", b)]; Impl "BitOr" [b] b [("Output", b)];
             Impl "BitXor" [b] b [("Output", b)]; Fn false b "enc_last" [b; b] b; Fn false b "dec_last" [b; b] b]).
(** lib.rs: [used_of] each type; mc and imc (lib.rs:319-344); the key schedules (lib.rs:440, 520-522); enc and dec or pre_enc and pre_dec
    (lib.rs:351-424); the conversions behind [into()] (lib.rs:267-277, 352-360, 474, 481, 504, 511) *)
Definition lib_needs (c : cfg) : list need :=
  flat_map used_of [One; Two; Four] ++
  map Item [Fn false (Blk One) "mc" [Blk One] (Blk One); Fn false (Blk One) "imc" [Blk One] (Blk One);
            Fn false Free "keygen_128" [U8s 16] (Array (Blk One) 11);
            Fn false Free "keygen_192" [U8s 24] (Array (Blk One) 13);
            Fn false Free "keygen_256" [U8s 32] (Array (Blk One) 15);
            Impl "From" [Blk One] (Blk Two) []; Impl "From" [Blk One] (Blk Four) [];
            Impl "From" [Blk Two] (Tup2 (Blk One) (Blk One)) []; Impl "From" [Blk Four] (Tup4 (Blk One) (Blk One) (Blk One) (Blk One)) []] ++
  (if select_pre_chain c
   then flat_map (fun g => map (fun f => Item (Fn false (Blk g) f [Blk g; Blk g] (Blk g))) ["pre_enc"; "pre_dec"]) [One; Two; Four] ++
        map Item [Impl "From" [Tup2 (Blk One) (Blk One)] (Blk Two) []; Impl "From" [Tup2 (Blk Two) (Blk Two)] (Blk Four) [];
                  Impl "From" [Blk Four] (Tup2 (Blk Two) (Blk Two)) []]
   else flat_map (fun g => map (fun f => Item (Fn false (Blk g) f [Blk g; Blk g] (Blk g))) ["enc"; "dec"]) [One; Two; Four]).
(** aesdefault_x2.rs, aesdefault_x4.rs: everything of the narrower type, which is compared by the derived [==] *)
Definition default_needs (narrow : group) : list need :=
  let b := Blk narrow in
  used_of narrow ++
  map Item ([Fn true b "new" [U8s (group_len narrow)] b; Impl "PartialEq" [b] b []; Impl "Eq" [] b []; Impl "Clone" [] b [];
             Impl "Not" [] b [("Output", b)]; Fn false b "is_zero" [b] Bool; Fn false b "enc" [b; b] b; Fn false b "dec" [b; b] b]).
(** aesdefault_x4.rs:19-58: and the conversions of AesBlockX2; aesni_x2.rs:7-50; aesni_x4.rs:7-86 *)
Definition x2_needs (c : cfg) : list need :=
  match select_x2 c with
  | WVaes => [Module "aes_x86"; Field (Blk One) (Simd "__m128i")]
  | WDefault => default_needs One
  end.
(* As above. *)
Definition x4_needs (c : cfg) : list need :=
  match select_x4 c with
  | WVaes => [Module "aes_x86"; Module "aesni_x2"; Field (Blk One) (Simd "__m128i"); Field (Blk Two) (Simd "__m256i")]
  | WDefault => default_needs Two ++ map Item [Impl "From" [Tup2 (Blk One) (Blk One)] (Blk Two) []; Impl "From" [Blk One] (Blk Two) [];
                                               Impl "From" [Blk Two] (Tup2 (Blk One) (Blk One)) []]
  end.
(* All of the crate (lib.rs:44-522). *)
Definition needs (c : cfg) : list need := lib_needs c ++ x2_needs c ++ x4_needs c.

(** ** What a constant calls *)
(* lib.rs:135-138 array_from_slice, aes_table_based.rs:10-15 load_u32_be *)
Definition array_from_slice (n : nat) : item := Fn true Free "array_from_slice" [Ref (Slice U8); Usize] (U8s n).
(* aes_table_based.rs:9-10 *)
Definition load_u32_be : item := Fn true Free "load_u32_be" [Ref (Slice U8); Usize] U32.
(** The bodies of the [const fn]s that [new] reaches: aes_x86.rs:66-69, aes_arm.rs:67-70, aes_bitslice.rs:280-282, aes_riscv64.rs:71-73,
    aes_riscv32.rs:102-104, aes_table_based.rs:85-92, aesni_x2.rs:93-95, aesni_x4.rs:129-131, aesdefault_x2.rs:76-81, aesdefault_x4.rs:99-104,
    lib.rs:135-138, aes_table_based.rs:10-15 *)
Definition new_calls (c : cfg) (g : group) : list callee :=
  match g with
  | One => match select_block c with
           | BBitslice => [Std "u128::from_ne_bytes"]
           | BTable => [Crate load_u32_be]
           | _ => [Std "mem::transmute"]
           end
  | Two => match select_x2 c with
           | WVaes => [Std "mem::transmute"]
           | WDefault => [Crate (Fn true (Blk One) "new" [U8s 16] (Blk One)); Crate (array_from_slice 16)]
           end
  | Four => match select_x4 c with
            | WVaes => [Std "mem::transmute"]
            | WDefault => [Crate (Fn true (Blk Two) "new" [U8s 32] (Blk Two)); Crate (array_from_slice 32)]
            end
  end.
(* As above: the functions of a build that have [const] bodies, and what those call. *)
Definition const_bodies (c : cfg) : list (item * list callee) :=
  map (fun g => (Fn true (Blk g) "new" [U8s (group_len g)] (Blk g), new_calls c g)) [One; Two; Four] ++
  map (fun n => (array_from_slice n, [Std "slice::len"; Std "slice::as_ptr"; Std "pointer::add"; Std "pointer::cast"])) [16; 32]%nat ++
  match select_block c with BTable => [(load_u32_be, [])] | _ => [] end.
