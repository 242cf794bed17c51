(** SPECIFICATION for C54: printing to any [core::fmt::Write], which may refuse what it is given. *)
From Coq Require Import String Ascii.
From Verif Require Import Word.
Open Scope string_scope.

(** One call of [write_str] or [write_char], and its text *)
Inductive piece := Str (s : string) | Chr (c : ascii).
Definition piece_text (p : piece) : string := match p with Str s => s | Chr c => String c "" end.
Fixpoint text (ps : list piece) : string := match ps with [] => "" | p :: r => piece_text p ++ text r end.
(** A sink: any state, any reaction; [false] is [Err(fmt::Error)]. *)
Record sink := Sink { state : Type; write : state -> piece -> state * bool }.
(** One call after the other, up to and including the first that is refused; [true]: none was. *)
Fixpoint feed (k : sink) (s : state k) (ps : list piece) : state k * bool :=
  match ps with
  | [] => (s, true)
  | p :: r => let '(s', ok) := write k s p in if ok then feed k s' r else (s', false)
  end.
(** A [fmt] method with everything but the sink given: new state of the sink, and Ok or Err *)
Definition printer := forall k : sink, state k -> outcome (state k * bool).
(** It makes the calls [ps], whatever the sink, stops at the first refused one and then returns Err; otherwise Ok; all calls together are [t]. *)
Definition prints_as (p : printer) (t : string) : Prop := exists ps, text ps = t /\ forall k s, p k s = Ret (feed k s ps).

(** Sinks people use: what was accepted is kept; [allow] decides, from what is there already ... *)
Definition recorder (allow : string -> piece -> bool) : sink :=
  Sink string (fun s p => if allow s p then (s ++ piece_text p, true) else (s, false)).
(** ... a [String] accepts all, a buffer of [n] bytes what fits. *)
Definition growing : sink := recorder (fun _ _ => true).
Definition buffer (n : nat) : sink := recorder (fun s p => Nat.leb (String.length s + String.length (piece_text p)) n).
