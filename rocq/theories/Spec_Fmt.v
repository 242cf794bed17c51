(** SPECIFICATION of the printed forms: positional numerals and the layout of Debug output. *)
From Coq Require Import String Ascii.
From Verif Require Import Word Fips197.
Open Scope string_scope.
Open Scope N_scope.

Definition lower_hex : string := "0123456789abcdef".
Definition upper_hex : string := "0123456789ABCDEF".
Definition binary : string := "01".
Definition nth_char (alphabet : string) (d : N) : ascii :=
  match String.get (N.to_nat d) alphabet with Some c => c | None => "?" end.
(** The [n]-digit numeral of [v], most significant digit first, zero padded. *)
Fixpoint numeral (alphabet : string) (base : N) (n : nat) (v : N) : string :=
  match n with
  | O => ""
  | S n' => numeral alphabet base n' (v / base) ++ String (nth_char alphabet (v mod base)) ""
  end.
Definition hex_of (alternate : bool) (v : N) : string := numeral (if alternate then upper_hex else lower_hex) 16 32 v.

Definition line_break : string := String "010" "".

(** Debug of a tuple of blocks: [(h1, h2)], or one line each with ['#']. *)
Definition tuple_text (alternate : bool) (vs : list N) : string :=
  if alternate
  then "(" ++ line_break ++ String.concat "" (map (fun v => "    " ++ hex_of true v ++ "," ++ line_break) vs) ++ ")"
  else "(" ++ String.concat ", " (map (hex_of false) vs) ++ ")".
(** Debug of a key object with round keys [vs]. *)
Definition object_text (alternate : bool) (name : string) (vs : list N) : string :=
  if alternate
  then name ++ " {" ++ line_break ++ "    round_keys: [" ++ line_break ++
       String.concat "" (map (fun v => "        " ++ hex_of true v ++ "," ++ line_break) vs) ++
       "    ]," ++ line_break ++ "}"
  else name ++ " { round_keys: [" ++ String.concat ", " (map (hex_of false) vs) ++ "] }".

(** ** What someone who reads a log can do *)
Definition digit_value (c : ascii) : N :=
  let n := N_of_ascii c in if n <? 58 then n - 48 else if n <? 91 then n - 55 else n - 87.
Fixpoint read_number (base acc : N) (s : string) : N :=
  match s with "" => acc | String c s' => read_number base (acc * base + digit_value c) s' end.
(** The [j]-th round key in the text of a key object whose name has 9 letters: plain form
    [Aes128Enc { round_keys: [] is 25 characters, entries are 34 apart; pretty form 38 and 42. *)
Definition printed_key (alternate : bool) (j : nat) (text : string) : list N :=
  let start := if alternate then (38 + 42 * j)%nat else (25 + 34 * j)%nat in
  to_be 16 (read_number 16 0 (substring start 32 text)).
Definition recover_key (alternate : bool) (k : key_size) (text : string) : list N :=
  firstn (key_len k) (printed_key alternate 0 text ++ printed_key alternate 1 text).
(** From the text of a decryption object: the last two printed keys, the second to last un-mixed. *)
Definition recover_key_dec (alternate : bool) (k : key_size) (text : string) : list N :=
  firstn (key_len k) (printed_key alternate (nr_of k) text ++ mix_columns (printed_key alternate (nr_of k - 1) text)).
Definition object_name (enc : bool) (k : key_size) : string :=
  ("Aes" ++ (match k with K128 => "128" | K192 => "192" | K256 => "256" end) ++ (if enc then "Enc" else "Dec"))%string.
