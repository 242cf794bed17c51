(** SPECIFICATION for C42: several threads that share objects.

    One thread makes some values; then any number of client threads run at the same time, all holding shared references to
    those values (block and key types have no lifetime, lock or cell, so they are Send and Sync).  All values live in one
    memory.  A call reads its thread's variables one by one, other threads running in between, and at last writes the values
    of its variables back and the new ones to fresh cells.  The borrow checker lets no thread assign to a shared value; that
    is the only rule: a call that changed one of its other operands would be seen by the other threads. *)
From Coq Require Import Arith.
From Verif Require Import Word Spec_Client.
Open Scope list_scope.

(** [x &= y], [x |= y], [x ^= y] need a [&mut] to x. *)
Definition assigns (c : call) : option nat :=
  match c with On _ (And_assign x _) | On _ (Or_assign x _) | On _ (Xor_assign x _) => Some x | _ => None end.

Section Threads.
  Context {S : Type} (step : list S -> call -> option (answer * list S)).
  (** A library in which the first [n] variables are shared. *)
  Definition sharing (n : nat) (vars : list S) (c : call) : option (answer * list S) :=
    match assigns c with
    | Some x => if Nat.ltb x n then None else step vars c
    | None => step vars c
    end.
  (** The variables a client ends with. *)
  Fixpoint final (vars : list S) (p : client) : list S :=
    match p with
    | Stop => vars
    | Do c next =>
        match (if typed c then step vars c else None) with
        | Some (a, vars') => final vars' (next a)
        | None => final vars (next Ill_typed)
        end
    end.

  Record thread : Type := Thread {
    names : list nat;                  (* the memory cell of each of its variables *)
    todo : client;
    got : option (list S);             (* inside a call: what it has read so far *)
    seen : list (call * answer)        (* its transcript *)
  }.
  Record world : Type := World { memory : list S; threads : list thread }.

  Definition write (m : list S) (cells : list nat) (vs : list S) : list S :=
    fold_left (fun m cv => assign m (fst cv) (snd cv)) (combine cells vs) m ++ skipn (List.length cells) vs.
  (** One step of a thread: it begins a call, reads one variable, or ends the call. *)
  Definition move (n : nat) (m : list S) (t : thread) : list S * thread :=
    match todo t with
    | Stop => (m, t)
    | Do c next =>
        match got t with
        | None => (m, Thread (names t) (todo t) (Some []) (seen t))
        | Some l =>
            match nth_error (names t) (List.length l) with
            | Some cell =>
                match nth_error m cell with
                | Some v => (m, Thread (names t) (todo t) (Some (l ++ [v])) (seen t))
                | None => (m, t)
                end
            | None =>
                match (if typed c then sharing n l c else None) with
                | Some (a, l') => (write m (names t) l',
                                   Thread (names t ++ seq (List.length m) (List.length l' - List.length l)) (next a) None (seen t ++ [(c, a)]))
                | None => (m, Thread (names t) (next Ill_typed) None (seen t ++ [(c, Ill_typed)]))
                end
            end
        end
    end.
  Definition turn (n : nat) (w : world) (t : nat) : world :=
    match nth_error (threads w) t with
    | Some th => let (m, th') := move n (memory w) th in World m (assign (threads w) t th')
    | None => w
    end.
  (** The schedule says whose turn it is. *)
  Definition interleave (n : nat) (w : world) (schedule : list nat) : world := fold_left (turn n) schedule w.
  Definition launch (shared : list S) (clients : list client) : world :=
    World shared (map (fun p => Thread (seq 0 (List.length shared)) p None []) clients).
End Threads.
Arguments Thread {S}. Arguments World {S}. Arguments names {S}. Arguments todo {S}. Arguments got {S}. Arguments seen {S}. Arguments memory {S}. Arguments threads {S}.
