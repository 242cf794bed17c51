(** Finite facts about the declarations, by deciding membership. *)
From Coq Require Import Lia Arith String.
From Verif Require Import Word Fips197 Spec_User Spec_Surface Model_Cfg Model_Surface.
Open Scope list_scope.

Lemma ty_dec (a b : ty) : {a = b} + {a <> b}.
Proof. decide equality; try apply Nat.eq_dec; try apply string_dec; decide equality. Defined.
Lemma item_dec (a b : item) : {a = b} + {a <> b}.
Proof.
  decide equality; try apply (list_eq_dec ty_dec); try apply ty_dec; try apply string_dec; try apply Bool.bool_dec.
  apply list_eq_dec. intros [s t] [s' t']. destruct (string_dec s s') as [->|]; [|right; congruence].
  destruct (ty_dec t t') as [->|]; [now left|right; congruence].
Defined.
Definition is_in (l : list item) (x : item) : bool := if in_dec item_dec x l then true else false.
Lemma is_in_ok l x : is_in l x = true -> In x l.
Proof. unfold is_in. now destruct (in_dec item_dec x l). Qed.
Definition same_items (l m : list item) : bool := forallb (is_in m) l && forallb (is_in l) m.
Lemma same_items_ok l m : same_items l m = true -> forall x, In x l <-> In x m.
Proof.
  unfold same_items. rewrite andb_true_iff, !forallb_forall. intros [A B] x. split; intros H; apply is_in_ok; auto.
Qed.
