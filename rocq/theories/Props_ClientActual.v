(** C41: what an arbitrary client sees on every build the compiler accepts, without restriction: exactly the library of the
    build's flavour (Spec_ClientActual).  There are three flavours, and clients can tell two builds apart exactly when their
    flavours differ. *)
From Coq Require Import Lia Arith String.
From Verif Require Import Word Interface Fips197 Spec_Api Spec_Reach Spec_Cfg Spec_User Spec_Fmt Spec_Actual Spec_Client Spec_ClientActual Model_Lib Model_Cfg Model_Fmt Model_Client.
From Verif Require Import Proof_Shape Proof_Sem Proof_ClientActual.
From Verif Require Import Samples Props_Client.
Open Scope N_scope.
Open Scope list_scope.

Theorem C41_every_client_on_every_build : forall c i p, rustc_ok c = true -> impl_of c = Some i ->
  play (crate i) [] p = play (library (flavour_of c)) [] p.
Proof.
  intros c i p RO E. destruct (every_build c i RO E) as (f1 & f2 & f4 & s & R & S0 & FT).
  apply (play_ok i f1 f2 f4 s R S0 _ FT). constructor.
Qed.
Print Assumptions C41_every_client_on_every_build.

(** The standard flavour is the ideal library of C40, which keeps keys, not round keys. *)
Theorem C41_standard_is_ideal : forall p, play (library standard) [] p = play ideal [] p.
Proof.
  intros p. assert (E : exists i, impl_of c_soft = Some i) by (eexists; reflexivity). destruct E as [i E].
  rewrite <- (C40_clients_see_fips197 c_soft i p E eq_refl). symmetry. exact (C41_every_client_on_every_build c_soft i p eq_refl E).
Qed.
Print Assumptions C41_standard_is_ideal.

(** Some client tells two builds apart exactly when one of them is, and the other is not, an RV32 build with Zkne and Zknd, or
    a big-endian build with the constant-time feature. *)
Lemma flavours_differ :
  play (library standard) [] key_client <> play (library riscv32) [] key_client /\
  play (library standard) [] key_client <> play (library big_endian_ct) [] key_client /\
  play (library riscv32) [] key_client <> play (library big_endian_ct) [] key_client.
Proof. repeat split; intros H; apply (f_equal (fun t => map snd t)) in H; vm_compute in H; discriminate. Qed.
Lemma rv32_not_be c : rustc_ok c = true -> rv32_zk c = true -> be_constant_time c = false.
Proof.
  destruct c as [a be ni ct sse aes va av v8 ze zd dbg]. unfold rustc_ok, rv32_zk, be_constant_time, is_x86, is_arch. cbn -[implb].
  destruct a; rewrite ?andb_false_r; try discriminate. destruct be; [|reflexivity]. rewrite ?andb_false_r. discriminate.
Qed.
Theorem C41_distinguishable_iff : forall c i c' i',
  rustc_ok c = true -> impl_of c = Some i -> rustc_ok c' = true -> impl_of c' = Some i' ->
  ((exists p, play (crate i) [] p <> play (crate i') [] p) <->
   (rv32_zk c <> rv32_zk c' \/ be_constant_time c <> be_constant_time c')).
Proof.
  intros c i c' i' RO E RO' E'. pose proof (rv32_not_be c RO) as B. pose proof (rv32_not_be c' RO') as B'. split.
  - intros [p H]. rewrite (C41_every_client_on_every_build c i p RO E), (C41_every_client_on_every_build c' i' p RO' E') in H. unfold flavour_of in H.
    destruct (rv32_zk c), (rv32_zk c'), (be_constant_time c), (be_constant_time c'); try (left; discriminate); try (right; discriminate); exfalso; now apply H.
  - intros H. exists key_client. rewrite (C41_every_client_on_every_build c i _ RO E), (C41_every_client_on_every_build c' i' _ RO' E'). unfold flavour_of.
    pose proof flavours_differ as F. revert F.
    assert (Q : forall (a b : bool) (F : flavour -> list (call * answer)), F (if a then riscv32 else if b then big_endian_ct else standard) = if a then F riscv32 else if b then F big_endian_ct else F standard)
      by (intros [] []; reflexivity).
    rewrite !(Q _ _ (fun fl => play (library fl) [] key_client)). clear Q.
    generalize (play (library standard) [] key_client), (play (library riscv32) [] key_client), (play (library big_endian_ct) [] key_client). clear - B B' H.
    intros u v w (F1 & F2 & F3). destruct (rv32_zk c), (rv32_zk c'), (be_constant_time c), (be_constant_time c'); intuition congruence.
Qed.
Print Assumptions C41_distinguishable_iff.

(** ** Cases *)
(** The busy client of C40 on all eleven builds, RV32 and big-endian constant-time included. *)
Example C41_every_client_case : forall c, In c samples -> exists i, impl_of c = Some i /\ play (crate i) [] busy = play (library (flavour_of c)) [] busy.
Proof.
  intros c H. destruct (sample_impl c H) as [i E]. exists i. split; [exact E|]. apply C41_every_client_on_every_build; [|exact E].
  assert (F : Forall (fun c => rustc_ok c = true) samples) by (repeat constructor). rewrite Forall_forall in F. now apply F.
Qed.
(** On RV32 the client takes another path: the "decrypted" blocks differ from the originals. *)
Example C41_busy_on_rv32 : map snd (play (library riscv32) [] busy) <> map snd (play ideal [] busy).
Proof. vm_compute. discriminate. Qed.
Example C41_distinguishable_case : exists i i', impl_of c_rv32 = Some i /\ impl_of c_ct_be = Some i' /\ exists p, play (crate i) [] p <> play (crate i') [] p.
Proof.
  eexists _, _. split; [reflexivity|]. split; [reflexivity|].
  apply (C41_distinguishable_iff c_rv32 _ c_ct_be _); [reflexivity|reflexivity|reflexivity|reflexivity|]. left. discriminate.
Qed.
Example C41_indistinguishable_case : exists i i', impl_of c_neon = Some i /\ impl_of c_soft_be = Some i' /\ forall p, play (crate i) [] p = play (crate i') [] p.
Proof.
  eexists _, _. split; [reflexivity|]. split; [reflexivity|]. intros p.
  rewrite (C41_every_client_on_every_build c_neon _ p eq_refl eq_refl), (C41_every_client_on_every_build c_soft_be _ p eq_refl eq_refl). reflexivity.
Qed.
