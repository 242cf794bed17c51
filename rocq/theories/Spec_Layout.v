(** SPECIFICATION for C51, C52: what the Rust reference ("Type layout") says about the memory layout of types, as a predicate on
    compilers, and what [mem::transmute] and pointer casts do.  Nothing here mentions the crate. *)
From Coq Require Import Arith.
From Verif Require Import Word.
Open Scope nat_scope.

Inductive prim := U8 | U32 | U64 | U128 | M128 | M256 | M512 (* __m128i, __m256i, __m512i *) | Neon128 (* uint8x16_t *).
(** [ReprC e] is repr(C, align(2^e)), plain repr(C) if [e = 0]; [Auto] is the default representation, that of tuples too. *)
Inductive repr := ReprC (e : nat) | Transparent | Auto.
Inductive ty := Prim (p : prim) | Array (t : ty) (n : nat) | Struct (r : repr) (fields : list ty).
Definition Tuple := Struct Auto.

(** What a compiler decides about a type: its size and alignment, and where its immediate parts begin. *)
Record layout := Layout { size : nat; align : nat; offsets : list nat }.
Definition compiler := ty -> layout.

(** "Primitive data layout"; vectors are as big as their name says *)
Definition prim_size (p : prim) : nat := match p with U8 => 1 | U32 => 4 | U64 => 8 | U128 | M128 | Neon128 => 16 | M256 => 32 | M512 => 64 end.
(** "The C representation": offsets in declaration order, each rounded up to the alignment of the field *)
Definition round_up (n a : nat) : nat := (n + (a - 1)) / a * a.
Fixpoint c_offsets (at_ : nat) (fs : list layout) : list nat :=
  match fs with [] => [] | f :: r => let p := round_up at_ (align f) in p :: c_offsets (p + size f) r end.
Fixpoint c_end (at_ : nat) (fs : list layout) : nat :=
  match fs with [] => at_ | f :: r => c_end (round_up at_ (align f) + size f) r end.
Definition c_align (a : nat) (fs : list layout) : nat := fold_right Nat.max a (map align fs).
Definition c_layout (a : nat) (fs : list layout) : layout :=
  Layout (round_up (c_end 0 fs) (c_align a fs)) (c_align a fs) (c_offsets 0 fs).
(** "The Rust representation": the fields are properly aligned, do not overlap, and the alignment of the type is at least the
    maximum alignment of its fields.  Nothing about their order, or about padding. *)
Definition apart (f g : nat * layout) : Prop := fst f + size (snd f) <= fst g \/ fst g + size (snd g) <= fst f.
Definition rust_rules (fs : list layout) (l : layout) : Prop :=
  length (offsets l) = length fs /\
  Forall (fun f => Nat.divide (align (snd f)) (fst f) /\ fst f + size (snd f) <= size l /\ align (snd f) <= align l) (combine (offsets l) fs) /\
  ForallOrdPairs apart (combine (offsets l) fs).

Definition layout_rules (L : compiler) (t : ty) : Prop :=
  (* "the alignment is always a power of 2", "the size is always a multiple of the alignment" *)
  (exists e, align (L t) = 2 ^ e) /\ Nat.divide (align (L t)) (size (L t)) /\
  match t with
  | Prim p => size (L t) = prim_size p /\ offsets (L t) = []
  | Array u n => L t = Layout (n * size (L u)) (align (L u)) (map (fun j => j * size (L u)) (seq 0 n))
  | Struct (ReprC e) fs => L t = c_layout (2 ^ e) (map L fs)
  | Struct Transparent [f] => L t = Layout (size (L f)) (align (L f)) [0]
  | Struct _ fs => rust_rules (map L fs) (L t)
  end.
(** A compiler for some target that keeps to the rules; on every target 16-byte integers and vectors are aligned no less than [u32]. *)
Definition follows_the_reference (L : compiler) : Prop :=
  (forall t, layout_rules L t) /\ Forall (fun p => align (L (Prim U32)) <= align (L (Prim p))) [U128; M128; Neon128].

(** The primitive parts of a value, in declaration order, with their sizes; bytes that belong to none of them are padding. *)
Fixpoint parts (L : compiler) (t : ty) : list (nat * nat) :=
  let at_ o := map (fun c => (o + fst c, snd c)) in
  match t with
  | Prim p => [(0, prim_size p)]
  | Array u n => flat_map (fun o => at_ o (parts L u)) (offsets (L t))
  | Struct _ fs => concat (map2 at_ (offsets (L t)) (map (parts L) fs))
  end.
Definition within (j : nat) (c : nat * nat) : bool := (fst c <=? j) && (j <? fst c + snd c).
Definition no_padding (L : compiler) (t : ty) : Prop := forall j, j < size (L t) -> exists c, In c (parts L t) /\ within j c = true.

(** A value is the list of its primitive values in declaration order.  Its bytes in memory ([None]: padding, uninitialised): *)
Definition memory (be : bool) (L : compiler) (t : ty) (v : list N) : list (option N) :=
  map (fun j => option_map (fun cx => nth (j - fst (fst cx)) (to_ne be (snd (fst cx)) (snd cx)) 0%N)
                           (find (fun cx => within j (fst cx)) (combine (parts L t) v)))
      (seq 0 (size (L t))).
Fixpoint all_some {A} (l : list (option A)) : option (list A) :=
  match l with [] => Some [] | Some x :: r => option_map (cons x) (all_some r) | None :: _ => None end.
(** Reading a value from memory: [None] if some byte of it is uninitialised (undefined behaviour) *)
Definition typed_read (be : bool) (L : compiler) (t : ty) (m : list (option N)) : option (list N) :=
  all_some (map (fun c => option_map (of_ne be) (all_some (firstn (snd c) (skipn (fst c) m)))) (parts L t)).
(** [mem::transmute::<Src, Dst>]: the sizes must agree *)
Definition transmute (be : bool) (L : compiler) (src dst : ty) (v : list N) : option (list N) :=
  if size (L src) =? size (L dst) then typed_read be L dst (memory be L src v) else None.
(** A slice of [n] values of type [u] over a variable of type [t] ([as_mut_ptr().cast()], [from_raw_parts_mut]): in its bounds, aligned
    whenever the variable is *)
Definition may_view (L : compiler) (t u : ty) (n : nat) : Prop := size (L (Array u n)) <= size (L t) /\ Nat.divide (align (L u)) (align (L t)).

(** Two compilers that follow the reference (proved in Proof_Layout), for examples: fields of tuples in declaration order, and backwards *)
Definition place (back : bool) (fs : list layout) : layout :=
  if back then let l := c_layout 1 (rev fs) in Layout (size l) (align l) (rev (offsets l)) else c_layout 1 fs.
Fixpoint compile (back : bool) (t : ty) : layout :=
  match t with
  | Prim p => Layout (prim_size p) (prim_size p) []
  | Array u n => let l := compile back u in Layout (n * size l) (align l) (map (fun j => j * size l) (seq 0 n))
  | Struct (ReprC e) fs => c_layout (2 ^ e) (map (compile back) fs)
  | Struct Transparent fs => match map (compile back) fs with [l] => Layout (size l) (align l) [0] | ls => place back ls end
  | Struct Auto fs => place back (map (compile back) fs)
  end.
