(** The fragment of Rust in which the arithmetic of the software backends is written (functions whose body is lets and an expression), as syntax trees,
    and what they evaluate to.  [Source.v] holds the trees of the source text; [Props_Source.v] proves that the models are what they evaluate to. *)
From Coq Require Import String.
From Verif Require Import Word Interface.
Open Scope string_scope.
Open Scope N_scope.

(** A [w]-bit unsigned integer (0: the width of a literal is inferred from its context), an array, tuple or tuple struct, a vector register (its bytes), or an error *)
Inductive val := I (w n : N) | A (l : list val) | V (l : list N) | Bad.
Inductive op := And | Or | Xor | Shl | Shr.
Inductive expr :=
| Var (x : string)
| Lit (n : N)
| Bin (o : op) (a b : expr)
| Not (a : expr)
| Cast (a : expr) (w : N)                (* [a as u8] and so on *)
| Arr (l : list expr)                    (* [[a, b]], [Self(a, b)] *)
| Rep (a : expr) (n : nat)               (* [[a; n]] *)
| Idx (a i : expr)                       (* [a[i]] *)
| Fld (a : expr) (n : nat)               (* [a.0] *)
| Call (f : string) (l : list expr)      (* [f(a, b)], [a.f(b)], [f::<C>(a)] (constant arguments first) *)
| CfgBig (a b : expr).                   (* [if cfg!(target_endian = "big") { a } else { b }] *)
(** parameters, the lets in order, the result *)
Inductive fn := Fn (params : list string) (lets : list (string * expr)) (res : expr).

Fixpoint assoc {B} (x : string) (l : list (string * B)) : option B :=
  match l with [] => None | (y, b) :: r => if String.eqb x y then Some b else assoc x r end.
Definition width (a b : N) : N := if a =? 0 then b else a.
Definition bin (o : op) (a b : val) : val :=
  match a, b with
  | I v x, I w y =>
      match o with
      | And => I (width v w) (N.land x y) | Or => I (width v w) (N.lor x y) | Xor => I (width v w) (N.lxor x y)
      | Shl => if y <? v then I v (shl v x y) else Bad
      | Shr => if y <? v then I v (shr x y) else Bad
      end
  | _, _ => Bad
  end.
(** an operator on other types is the method of its trait *)
Definition op_name (o : op) : string := match o with And => "bitand" | Or => "bitor" | Xor => "bitxor" | Shl => "shl" | Shr => "shr" end.
Definition cast (a : val) (w : N) : val := match a with I v x => if v <=? w then I w x else I w (trunc w x) | _ => Bad end.
Definition elem (a : val) (n : nat) : val := match a with A l => nth n l Bad | _ => Bad end.

Section Eval.
  (** What the functions that are called, the methods and the statics mean; the endianness of the target *)
  Context (F : string -> list val -> val) (be : bool).
  Fixpoint eval (env : list (string * val)) (e : expr) : val :=
    match e with
    | Var x => match assoc x env with Some v => v | None => F x [] end
    | Lit n => I 0 n
    | Bin o a b => match eval env a with A l => F (op_name o) [A l; eval env b] | v => bin o v (eval env b) end
    | Not a => match eval env a with A l => F "not" [A l] | I w x => I w (bnot w x) | _ => Bad end
    | Cast a w => cast (eval env a) w
    | Arr l => A (map (eval env) l)
    | Rep a n => A (repeat (eval env a) n)
    | Idx a i => match eval env i with I _ n => elem (eval env a) (N.to_nat n) | _ => Bad end
    | Fld a n => elem (eval env a) n
    | Call f l => F f (map (eval env) l)
    | CfgBig a b => if be then eval env a else eval env b
    end.
  Fixpoint lets (env : list (string * val)) (ls : list (string * expr)) : list (string * val) :=
    match ls with [] => env | (x, e) :: r => lets ((x, eval env e) :: env) r end.
  Definition run (f : fn) (args : list val) : val :=
    match f with Fn ps ls res => if Nat.eqb (length ps) (length args) then eval (lets (combine ps args) ls) res else Bad end.
End Eval.

(** The methods of the integer types *)
Definition num (v : val) : N := match v with I _ n => n | _ => 0 end.
Definition methods (be : bool) (f : string) (args : list val) : val :=
  match args with
  | [A l] => if String.eqb f "u128::from_ne_bytes" then I 128 (of_ne be (map num l)) else Bad
  | [I w x] => if String.eqb f "to_ne_bytes" then A (map (I 8) (to_ne be (N.to_nat (w / 8)) x)) else Bad
  | [I w x; I _ y] => if String.eqb f "wrapping_sub" then I w (wrapping_sub w x y) else if String.eqb f "rotate_right" then I w (rotr w x y) else Bad
  | _ => Bad
  end.
