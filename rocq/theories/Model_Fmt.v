(** src/lib.rs:215-277 (Debug, Display, Binary, LowerHex, UpperHex of AesBlock; Debug of AesBlockX2,
    AesBlockX4) and the derived Debug of the key objects (lib.rs:430, 445).

    Formatting is modelled as a function from the options of the [Formatter] to the text written.
    Simplification: the sink never fails (as for [format!] and [println!] to a working stream), so
    [?] never returns early; Model_Sink has the single writes and sinks that fail.  The parts of core::fmt that are used are modelled from its source and
    marked "core::fmt". *)
From Coq Require Import String Ascii.
From Verif Require Import Word Interface Fips197 Model_Lib.
Open Scope string_scope.
Open Scope N_scope.

(** core::fmt Formatter: the options of a placeholder.  ['#'] sets [f_alternate]; width is what
    [{:40x}] asks for. *)
(* Library part, used by lib.rs:215-277. *)
Record fopts : Type := FOpts { f_alternate : bool; f_width : option nat }.
(** core::fmt: the options a nested [write!(f, "{...}")] starts from - those written in its own
    placeholder, not those of [f]. *)
(* Library part, used by lib.rs:215-277. *)
Definition fresh : fopts := FOpts false None.

(** core::fmt::num LowerHex, UpperHex, Binary digits *)
(* Library part, used by lib.rs:215-277. *)
Definition digit_lower (d : N) : ascii := ascii_of_N (if d <? 10 then 48 + d else 87 + d).
(* Library part, used by lib.rs:215-277. *)
Definition digit_upper (d : N) : ascii := ascii_of_N (if d <? 10 then 48 + d else 55 + d).
(** core::fmt::num GenericRadix::fmt_int on a u8: digits from the least significant, at least one.
    A u8 has at most 8 digits in any base >= 2, so 8 steps suffice. *)
(* Library part, used by lib.rs:215-277. *)
Fixpoint radix_digits (fuel : nat) (base : N) (digit : N -> ascii) (n : N) (acc : string) : string :=
  match fuel with
  | O => acc
  | S fuel' =>
      let acc := String (digit (n mod base)) acc in
      if n / base =? 0 then acc else radix_digits fuel' base digit (n / base) acc
  end.
(* Library part (the padding characters), used by lib.rs:215-277. *)
Fixpoint repeat_char (c : ascii) (n : nat) : string :=
  match n with O => "" | S n' => String c (repeat_char c n') end.
(** core::fmt Formatter::pad_integral with the '0' flag and a width: [{x:>0Wx}] *)
(* Library part, used by lib.rs:215-277. *)
Definition fmt_u8_zero_padded (width : nat) (base : N) (digit : N -> ascii) (n : N) : string :=
  let s := radix_digits 8 base digit n "" in
  repeat_char "0" (width - String.length s) ++ s.

Section Fmt.
  Context (i : impl).

  (* The loops of lib.rs:231-265: one write! after another. *)
  Definition concat_map (f : N -> string) (l : list N) : string := String.concat "" (map f l).
  (** lib.rs:231-241 *)
  Definition fmt_binary (x : T1 i) (f : fopts) : outcome string :=
    let prefix := if f_alternate f then "0b" else "" in
    b <- to_bytes (i_ops1 i) x ;; Ret (prefix ++ concat_map (fmt_u8_zero_padded 8 2 digit_lower) b).
  (** lib.rs:243-253 *)
  Definition fmt_lower_hex (x : T1 i) (f : fopts) : outcome string :=
    let prefix := if f_alternate f then "0x" else "" in
    b <- to_bytes (i_ops1 i) x ;; Ret (prefix ++ concat_map (fmt_u8_zero_padded 2 16 digit_lower) b).
  (** lib.rs:255-265 *)
  Definition fmt_upper_hex (x : T1 i) (f : fopts) : outcome string :=
    let prefix := if f_alternate f then "0X" else "" in
    b <- to_bytes (i_ops1 i) x ;; Ret (prefix ++ concat_map (fmt_u8_zero_padded 2 16 digit_upper) b).
  (** lib.rs:221-229: [write!(f, "{self:X}")] has its own placeholder *)
  Definition fmt_display (x : T1 i) (f : fopts) : outcome string :=
    if f_alternate f then fmt_upper_hex x fresh else fmt_lower_hex x fresh.
  (** lib.rs:215-219 *)
  Definition fmt_debug (x : T1 i) (f : fopts) : outcome string := fmt_display x f.

  (** core::fmt builders PadAdapter: four spaces before each line *)
  (* Library part, used through lib.rs:267-277 and the derive(Debug) of lib.rs:430, 445. *)
  Definition newline : ascii := "010".
  (* Library part, used through lib.rs:267-277 and the derive(Debug) of lib.rs:430, 445. *)
  Fixpoint pad_adapter (on_newline : bool) (s : string) : string :=
    match s with
    | EmptyString => ""
    | String c s' =>
        (if on_newline then "    " else "") ++ String c (pad_adapter (Ascii.eqb c newline) s')
    end.
  (* Library part, used through lib.rs:267-277 and the derive(Debug) of lib.rs:430, 445. *)
  Definition nl : string := String newline "".

  (** core::fmt builders: the entries of DebugTuple::field and DebugInner::entry, [opened] = text
      before the first entry.  Plain form: separated by ", "; pretty form: one per line, indented. *)
  (* Library part, used through lib.rs:267-277 and the derive(Debug) of lib.rs:430, 445. *)
  Fixpoint entries (alt first : bool) (l : list string) : string :=
    match l with
    | [] => ""
    | s :: l' =>
        (if alt then (if first then nl else "") ++ pad_adapter true (s ++ "," ++ nl)
         else (if first then "" else ", ") ++ s)
        ++ entries alt false l'
    end.
  (* The ? after each nested write (lib.rs:215-277). *)
  Fixpoint all_ret {A} (l : list (outcome A)) : outcome (list A) :=
    match l with [] => Ret [] | r :: l' => a <- r ;; q <- all_ret l' ;; Ret (a :: q) end.
  (** core::fmt DebugTuple with an empty name, at least two fields: the Debug of a tuple *)
  (* Library part, used by lib.rs:267-277. *)
  Definition debug_tuple (fields : list (fopts -> outcome string)) (f : fopts) : outcome string :=
    l <- all_ret (map (fun g => g f) fields) ;;
    Ret ("(" ++ entries (f_alternate f) true l ++ ")").
  (** core::fmt DebugList: the Debug of a (non-empty) array *)
  (* Library part, used by the derive(Debug) of lib.rs:430, 445. *)
  Definition debug_array (elems : list (fopts -> outcome string)) (f : fopts) : outcome string :=
    l <- all_ret (map (fun g => g f) elems) ;;
    Ret ("[" ++ entries (f_alternate f) true l ++ "]").
  (** core::fmt Formatter::debug_struct_field1_finish: derive(Debug) of a struct with one field *)
  (* Library part, used by the derive(Debug) of lib.rs:430, 445. *)
  Definition debug_struct1 (name field : string) (v : fopts -> outcome string) (f : fopts) : outcome string :=
    s <- v f ;;
    Ret (if f_alternate f
         then name ++ " {" ++ nl ++ pad_adapter true (field ++ ": " ++ s ++ "," ++ nl) ++ "}"
         else name ++ " { " ++ field ++ ": " ++ s ++ " }").

  (** lib.rs:267-271 *)
  Definition fmt_debug_x2 (x : T2 i) (f : fopts) : outcome string :=
    let '(a, b) := x2_to_pair i x in debug_tuple [fmt_debug a; fmt_debug b] f.
  (** lib.rs:273-277 *)
  Definition fmt_debug_x4 (x : T4 i) (f : fopts) : outcome string :=
    let '(a, b, c, d) := x4_to_quad i x in debug_tuple [fmt_debug a; fmt_debug b; fmt_debug c; fmt_debug d] f.

  (** lib.rs:430-433, 445-448 with the names of lib.rs:520-522 *)
  Definition enc_name (k : key_size) : string :=
    match k with K128 => "Aes128Enc" | K192 => "Aes192Enc" | K256 => "Aes256Enc" end.
  Definition dec_name (k : key_size) : string :=
    match k with K128 => "Aes128Dec" | K192 => "Aes192Dec" | K256 => "Aes256Dec" end.
  Definition fmt_debug_enc (k : key_size) (e : enc_obj i) (f : fopts) : outcome string :=
    debug_struct1 (enc_name k) "round_keys" (debug_array (map fmt_debug (enc_keys e))) f.
  Definition fmt_debug_dec (k : key_size) (d : dec_obj i) (f : fopts) : outcome string :=
    debug_struct1 (dec_name k) "round_keys" (debug_array (map fmt_debug (dec_keys d))) f.
End Fmt.
