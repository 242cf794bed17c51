(** The formatting code of src/lib.rs:215-277 and of the derived Debug of the key objects (lib.rs:430, 445) as it writes to a sink that may
    fail: every [write_str] and [write_char], with the early returns of [?].  Model_Fmt has the text only.  core::fmt from its source. *)
From Coq Require Import String Ascii.
From Verif Require Import Word Interface Fips197 Model_Lib Model_Fmt Spec_Sink.
Open Scope string_scope.
Open Scope N_scope.

(* a single call (lib.rs:233-234 [f.write_str("0b")?] and the like) *)
Definition put (p : piece) : printer := fun k s => Ret (write k s p).
(* [p?; q] (lib.rs:231-265), also [result.and_then] in core::fmt::builders *)
Definition then_ (p q : printer) : printer := fun k s => r <- p k s ;; if snd r then q k (fst r) else Ret r.
(* [Ok(())] (lib.rs:239, 251, 263) *)
Definition done : printer := fun k s => Ret (s, true).
(* a loop of writes with [?] (lib.rs:236-238, 248-250, 260-262) *)
Fixpoint in_order (l : list printer) : printer := match l with [] => done | p :: r => then_ p (in_order r) end.

(** core::fmt Formatter::pad_integral with the '0' flag: no prefix, the padding one [write_char] at a time, then the digits *)
(* Library part, used by lib.rs:231-265. *)
Definition put_u8_zero_padded (width : nat) (base : N) (digit : N -> ascii) (n : N) : printer :=
  let s := radix_digits 8 base digit n "" in
  then_ (in_order (repeat (put (Chr "0")) (width - String.length s))) (put (Str s)).

(** core::str split_inclusive('\n') *)
(* Library part, used through lib.rs:267-277, 430, 445. *)
Fixpoint lines (s : string) : list string :=
  match s with
  | EmptyString => []
  | String c s' => if Ascii.eqb c newline then String c "" :: lines s'
                   else match lines s' with [] => [String c ""] | l :: r => String c l :: r end
  end.
(* Library part ([str::ends_with]), used through lib.rs:267-277, 430, 445. *)
Fixpoint ends_line (s : string) : bool :=
  match s with EmptyString => false | String c "" => Ascii.eqb c newline | String _ s' => ends_line s' end.
(** core::fmt::builders PadAdapter: a sink around a sink, with its flag [on_newline] *)
(* Library part, used through lib.rs:267-277, 430, 445. *)
Fixpoint pad_lines (k : sink) (s : state k) (on_newline : bool) (ls : list string) : (state k * bool) * bool :=
  match ls with
  | [] => ((s, on_newline), true)
  | l :: r =>
      let '(s1, ok1) := if on_newline then write k s (Str "    ") else (s, true) in
      if ok1 then let '(s2, ok2) := write k s1 (Str l) in
                  if ok2 then pad_lines k s2 (ends_line l) r else ((s2, ends_line l), false)
      else ((s1, on_newline), false)
  end.
(* Library part (write_str and write_char of PadAdapter), used through lib.rs:267-277, 430, 445. *)
Definition pad_write (k : sink) (sb : state k * bool) (p : piece) : (state k * bool) * bool :=
  match p with
  | Str t => pad_lines k (fst sb) (snd sb) (lines t)
  | Chr c =>
      let '(s1, ok1) := if snd sb then write k (fst sb) (Str "    ") else (fst sb, true) in
      if ok1 then let '(s2, ok2) := write k s1 (Chr c) in ((s2, Ascii.eqb c newline), ok2) else ((s1, snd sb), false)
  end.
(* Library part ([PadAdapter::wrap]), used through lib.rs:267-277, 430, 445. *)
Definition padded (k : sink) : sink := Sink (state k * bool) (pad_write k).
Definition in_pad (p : printer) : printer := fun k s => r <- p (padded k) (s, true) ;; Ret (fst (fst r), snd r).

(** core::fmt::builders: entries of DebugTuple and DebugList.  [open_] is written before the first entry of a tuple (of a list the "[" has been
    written by [debug_list]); pretty form: a line break after it, entries through the PadAdapter. *)
(* Library part, used by lib.rs:267-277 and derive(Debug) of lib.rs:430, 445. *)
Definition put_tuple (fields : list (fopts -> printer)) (f : fopts) : printer :=
  let entry (first : bool) (v : fopts -> printer) : printer :=
    if f_alternate f then then_ (if first then put (Str ("(" ++ nl)) else done) (in_pad (then_ (v f) (put (Str ("," ++ nl)))))
    else then_ (put (Str (if first then "(" else ", "))) (v f) in
  then_ (put (Str "")) (then_ (in_order (match fields with [] => [] | v :: r => entry true v :: map (entry false) r end)) (put (Str ")"))).
(* Library part, used by derive(Debug) of lib.rs:430, 445. *)
Definition put_array (elems : list (fopts -> printer)) (f : fopts) : printer :=
  let entry (first : bool) (v : fopts -> printer) : printer :=
    if f_alternate f then then_ (if first then put (Str nl) else done) (in_pad (then_ (v f) (put (Str ("," ++ nl)))))
    else then_ (if first then done else put (Str ", ")) (v f) in
  then_ (put (Str "[")) (then_ (in_order (match elems with [] => [] | v :: r => entry true v :: map (entry false) r end)) (put (Str "]"))).
(** core::fmt Formatter::debug_struct_field1_finish *)
(* Library part, used by derive(Debug) of lib.rs:430, 445. *)
Definition put_struct1 (name field : string) (v : fopts -> printer) (f : fopts) : printer :=
  then_ (put (Str name))
    (if f_alternate f
     then then_ (put (Str (" {" ++ nl))) (then_ (in_pad (in_order [put (Str field); put (Str ": "); v f; put (Str ("," ++ nl))])) (put (Str "}")))
     else in_order [put (Str " { "); put (Str field); put (Str ": "); v f; put (Str " }")]).

Section Put.
  Context (i : impl).
  (* the loops: prefix if '#', then [for x in <[u8; 16]>::from( *self) { write!(f, ..)?; }] (lib.rs:231-265) *)
  Definition put_bytes (prefix : string) (width : nat) (base : N) (digit : N -> ascii) (x : T1 i) (f : fopts) : printer :=
    then_ (if f_alternate f then put (Str prefix) else done)
          (fun k s => b <- to_bytes (i_ops1 i) x ;; in_order (map (put_u8_zero_padded width base digit) b) k s).
  (** lib.rs:231-241, 243-253, 255-265 *)
  Definition put_binary : T1 i -> fopts -> printer := put_bytes "0b" 8 2 digit_lower.
  Definition put_lower_hex : T1 i -> fopts -> printer := put_bytes "0x" 2 16 digit_lower.
  Definition put_upper_hex : T1 i -> fopts -> printer := put_bytes "0X" 2 16 digit_upper.
  (** lib.rs:221-229, 215-219 *)
  Definition put_display (x : T1 i) (f : fopts) : printer := if f_alternate f then put_upper_hex x fresh else put_lower_hex x fresh.
  Definition put_debug (x : T1 i) (f : fopts) : printer := put_display x f.
  (** lib.rs:267-271, 273-277 *)
  Definition put_debug_x2 (x : T2 i) (f : fopts) : printer := let '(a, b) := x2_to_pair i x in put_tuple [put_debug a; put_debug b] f.
  Definition put_debug_x4 (x : T4 i) (f : fopts) : printer := let '(a, b, c, d) := x4_to_quad i x in put_tuple [put_debug a; put_debug b; put_debug c; put_debug d] f.
  (** lib.rs:430-433, 445-448 *)
  Definition put_debug_enc (k : key_size) (e : enc_obj i) (f : fopts) : printer := put_struct1 (enc_name k) "round_keys" (put_array (map put_debug (enc_keys e))) f.
  Definition put_debug_dec (k : key_size) (d : dec_obj i) (f : fopts) : printer := put_struct1 (dec_name k) "round_keys" (put_array (map put_debug (dec_keys d))) f.
End Put.
