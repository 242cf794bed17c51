(** C38, key set-up: the key generators that write the round keys through a [u32] slice laid over an array of blocks (NEON, RV32,
    constant-time code) make no out-of-bounds or misaligned access, and change nothing but that array. *)
From Coq Require Import Lia Arith.
From Verif Require Import Word Interface Fips197 Spec_Api Spec_Reach Spec_Cfg Spec_User Spec_Layout Spec_Mem Spec_MemKey Model_Lib Model_Cfg Model_Running.
From Verif Require Import Model_Layout Model_Columns Isa_arm Model_Bitslice Model_Arm Model_Rv32 Model_MemKey.
From Verif Require Import Proof_Word Proof_Fips Proof_Ok Proof_Columns Proof_Shape Proof_Mem Proof_MemKey Proof_Layout Proof_X86 Proof_Main Proof_Arm Proof_Rv32 Proof_Bitslice Props_Cipher Props_Cfg Props_LeakAccel Props_Mem Props_Layout.
From Verif Require Import Samples.
Open Scope N_scope.

(** ** The round keys over a list of columns *)
Definition col_keygen (fo : formulas) (be : bool) (k : key_size) (key : list N) : outcome (list N) :=
  match k with
  | K128 => col_keygen_128 be (fo_12 fo) key
  | K192 => col_keygen_192 be (fo_12 fo) key
  | K256 => col_keygen_256 be (fo_loop fo) (fo_last fo) (fo_mid fo) key
  end.
Lemma neon_le c : rustc_ok c = true -> In (readme c) [P_neon; P_rv32] -> c_be c = false.
Proof.
  intros H I. unfold readme in I. destruct (readme_vaes_4 c); [cbn in I; destruct I as [I|[I|[]]]; discriminate I|].
  destruct (readme_vaes_2 c); [cbn in I; destruct I as [I|[I|[]]]; discriminate I|]. destruct (readme_aesni c); [cbn in I; destruct I as [I|[I|[]]]; discriminate I|].
  destruct (readme_neon c) eqn:N.
  - unfold readme_neon in N. apply andb_prop in N. destruct N as [N _]. apply andb_prop in N. destruct N as [N _]. unfold little in N. now destruct (c_be c).
  - destruct (readme_rv64 c); [cbn in I; destruct I as [I|[I|[]]]; discriminate I|]. destruct (readme_rv32 c) eqn:R; [|destruct (c_ct c); cbn in I; destruct I as [I|[I|[]]]; discriminate I].
    unfold readme_rv32 in R. do 2 (apply andb_prop in R; destruct R as [R _]). clear I N. apply andb_prop in R. destruct R as [_ R].
    unfold rustc_ok in H. apply andb_prop in H. destruct H as [_ H]. destruct (c_be c); [|reflexivity]. destruct c as [a ? ? ? ? ? ? ? ? ? ? ?]. destruct a; cbn in H, R; discriminate H || discriminate R.
Qed.
Lemma shows_blocks {T} (o : ops T) (g : list N -> T) bs : (forall b, is_bytes 16 b -> shows o (g b) b) -> Forall (is_bytes 16) bs -> Forall2 (shows o) (map g bs) bs.
Proof. intros H F. induction F; constructor; auto. Qed.
Lemma key_setup_lists c i p fo k key : rustc_ok c = true -> impl_of c = Some i -> running c = Some p -> formulas_of p = Some fo -> is_bytes (key_len k) key ->
  exists cols e, col_keygen fo (c_be c) k key = Ret cols /\ good_cols (4 * (nr_of k + 1)) cols /\ enc_new i k key = Ret e /\
    Forall2 (shows (i_ops1 i)) (enc_keys e) (col_blocks (c_be c) (nr_of k + 1) cols).
Proof.
  intros Hc E Hr Hf Hk. pose proof (formulas_good p fo Hf) as (G1 & G2 & G3 & G4).
  assert (Y : yields (good_cols (4 * (nr_of k + 1))) (col_keygen fo (c_be c) k key)).
  { destruct k; cbn [col_keygen nr_of]; [apply shape_128|apply shape_192|apply shape_256]; assumption. }
  destruct Y as (cols & Ec & Gc). exists cols. destruct (blocks_shape (c_be c) _ cols Gc) as [_ Fb].
  apply (running_is c p Hc) in Hr. rewrite C25_readme_is_selection in E by exact Hc. destruct (be_arm_aes c) eqn:Ba; [discriminate E|]. injection E as <-. rewrite <- Hr.
  pose proof (neon_le c Hc) as Le. rewrite <- Hr in Le.
  destruct p; try discriminate Hf; injection Hf as <-.
  - (* NEON *) assert (Lb : c_be c = false) by (apply Le; cbn; tauto). rewrite Lb in *. exists (@EncObj (implementation c P_neon) (map (fun b => b) (col_blocks false (nr_of k + 1) cols))).
    split; [exact Ec|]. split; [exact Gc|]. split.
    + rewrite map_id. unfold enc_new. destruct k; cbn [keygen i_ext implementation default_of e_keygen_128 e_keygen_192 e_keygen_256 arm_ext]; unfold arm_keygen_128, arm_keygen_192, arm_keygen_256, arm_keygen; cbn [col_keygen fo_12 fo_loop fo_last fo_mid] in Ec; rewrite Ec; reflexivity.
    + cbn [enc_keys]. apply shows_blocks; [|exact Fb]. intros b Hb. exact (to_bytes_ok _ 16 _ b (arm_data_ok (is_arch Arm c)) Hb).
  - (* RV32 *) assert (Lb : c_be c = false) by (apply Le; cbn; tauto). rewrite Lb in *. exists (@EncObj (implementation c P_rv32) (map r32_of_bytes (col_blocks false (nr_of k + 1) cols))).
    split; [exact Ec|]. split; [exact Gc|]. split.
    + unfold enc_new. destruct k; cbn [keygen i_ext implementation default_of e_keygen_128 e_keygen_192 e_keygen_256 rv32_ext]; unfold r32_keygen_128, r32_keygen_192, r32_keygen_256, r32_keygen; cbn [col_keygen fo_12 fo_loop fo_last fo_mid] in Ec; rewrite Ec; reflexivity.
    + cbn [enc_keys]. apply shows_blocks; [|exact Fb]. intros b Hb. exact (to_bytes_ok _ 16 _ b rv32_data_ok Hb).
  - (* constant-time code *) exists (@EncObj (implementation c P_constant_time) (map (of_ne (c_be c)) (col_blocks (c_be c) (nr_of k + 1) cols))).
    split; [exact Ec|]. split; [exact Gc|]. split.
    + unfold enc_new. destruct k; cbn [keygen i_ext implementation default_of e_keygen_128 e_keygen_192 e_keygen_256 bitslice_ext]; unfold bs_keygen_128, bs_keygen_192, bs_keygen_256, bs_keygen; cbn [col_keygen fo_12 fo_loop fo_last fo_mid] in Ec; rewrite Ec; reflexivity.
    + cbn [enc_keys]. apply shows_blocks; [|exact Fb]. intros b Hb. exact (to_bytes_ok _ 16 _ b (bitslice_data_ok (c_be c)) Hb).
Qed.

(** ** Key set-up in memory *)
(** Whatever the memory holds, wherever in it the compiler puts the array of round keys (aligned as its type asks): key set-up goes
    through - no panic, no access outside the array or misaligned -, all it changes is the array, and the array then holds the bytes of
    the round keys that the key object is made of; of FIPS 197's, on every build that conforms. *)
Theorem C38_key_setup_in_memory : forall c i p fo k key L a m,
  rustc_ok c = true -> impl_of c = Some i -> running c = Some p -> formulas_of p = Some fo -> is_bytes (key_len k) key -> follows_the_reference L ->
  Nat.divide (align (L (block_ty p))) a -> (a + 16 * (nr_of k + 1) <= length m)%nat ->
  exists m' e rks, m_keygen L p (c_be c) fo k key a m = Ret m' /\
    enc_new i k key = Ret e /\ Forall2 (shows (i_ops1 i)) (enc_keys e) rks /\ length rks = (nr_of k + 1)%nat /\ Forall (is_bytes 16) rks /\
    with_bytes m m' a (concat rks) /\
    (conforming c = true -> rks = round_keys k key).
Proof.
  intros c i p fo k key L a m Hc E Hr Hf Hk HL Ha Hm.
  destruct (key_setup_lists c i p fo k key Hc E Hr Hf Hk) as (cols & e & Ec & Gc & Ee & Sh). destruct (blocks_shape (c_be c) _ cols Gc) as [Lb Fb].
  pose proof (formulas_good p fo Hf) as (G1 & G2 & G3 & G4). destruct (block_packed L p HL) as (P1 & _ & Al).
  assert (Sz : forall n, size (L (Array (block_ty p) n)) = (4 * (4 * n))%nat) by (intros n; rewrite (proj2 (packed_array L _ n _ HL P1)), times_total, block_total; lia).
  assert (Ip : In p [P_neon; P_rv32; P_constant_time]) by (destruct p; try discriminate Hf; cbn; tauto).
  assert (Au : aligned a (align (L (Prim U32))) = true).
  { unfold aligned. apply Nat.eqb_eq. apply Nat.mod_divide; [pose proof (align_pos L (Prim U32) HL); lia|]. eapply Nat.divide_trans; [apply pow_le_divide; [exact HL|now apply Al]|exact Ha]. }
  assert (R : raw_parts (align (L (Prim U32))) (4 * (4 * (nr_of k + 1))) a (4 * (nr_of k + 1)) = Ret (Words a (4 * (nr_of k + 1)))) by (unfold raw_parts; now rewrite Nat.leb_refl, Au).
  assert (Run : m_keygen L p (c_be c) fo k key a m = Ret (overwrite m a (img (c_be c) cols))).
  { pose proof (zero_put (c_be c) (4 * (nr_of k + 1)) m a) as Z.
    destruct k; cbn [m_keygen col_keygen nr_of key_len nk_of Nat.add] in *; rewrite Sz; cbv zeta; change (4 * (4 * 11))%nat with 176%nat in *; change (4 * (4 * 13))%nat with 208%nat in *; change (4 * (4 * 15))%nat with 240%nat in *;
      change (4 * 11)%nat with 44%nat in *; change (4 * 13)%nat with 52%nat in *; change (4 * 15)%nat with 60%nat in *; rewrite R; cbn [bind].
    - change (4 * 44)%nat with 176%nat in Z. rewrite Z. rewrite (does_128 (c_be c) m a (fo_12 fo) key) by (try assumption; lia). now rewrite Ec.
    - change (4 * 52)%nat with 208%nat in Z. rewrite Z. rewrite (does_192 (c_be c) m a (fo_12 fo) key) by (try assumption; lia). now rewrite Ec.
    - change (4 * 60)%nat with 240%nat in Z. rewrite Z. rewrite (does_256 (c_be c) m a (fo_loop fo) (fo_last fo) (fo_mid fo) key) by (try assumption; lia). now rewrite Ec. }
  assert (Ci : concat (col_blocks (c_be c) (nr_of k + 1) cols) = img (c_be c) cols).
  { unfold col_blocks. apply chunks_concat. fold (img (c_be c) cols). rewrite img_length, (proj1 Gc). lia. }
  exists (overwrite m a (img (c_be c) cols)), e, (col_blocks (c_be c) (nr_of k + 1) cols).
  split; [exact Run|]. split; [exact Ee|]. split; [exact Sh|]. split; [exact Lb|]. split; [exact Fb|]. split.
  - rewrite Ci. apply overwrite_with. rewrite img_length, (proj1 Gc). lia.
  - intros C. destruct (C07_round_keys_are_key_expansion c i k key E C Hk) as (e' & Ee' & S'). rewrite Ee in Ee'. injection Ee' as <-.
    clear -Sh S'. revert S'. generalize (round_keys k key). induction Sh as [|x b xs bs Hx _ IH]; intros r S'; inversion S'; subst; [reflexivity|]. f_equal; [|now apply IH].
    unfold shows in *. congruence.
Qed.
Print Assumptions C38_key_setup_in_memory.
(** Hypotheses are met: the four kinds of builds, FIPS 197's keys, an array at address 32 of a memory of 300 nines; its neighbours stay nines. *)
Example C38_key_setup_case : forall c k, In c [c_neon; c_rv32; c_ct_le; c_ct_be] ->
  exists i p fo m' e rks, impl_of c = Some i /\ running c = Some p /\ formulas_of p = Some fo /\
    m_keygen (compile true) p (c_be c) fo k (fips_key k) 32 (repeat 9 300) = Ret m' /\ enc_new i k (fips_key k) = Ret e /\ Forall2 (shows (i_ops1 i)) (enc_keys e) rks /\
    nth 31 m' 0 = 9 /\ nth (32 + 16 * (nr_of k + 1)) m' 0 = 9 /\ nth 32 m' 0 = nth 0 (concat rks) 0.
Proof.
  intros c k H.
  assert (Q : exists i p fo, rustc_ok c = true /\ impl_of c = Some i /\ running c = Some p /\ formulas_of p = Some fo /\ Nat.divide (align (compile true (block_ty p))) 32).
  { destruct H as [<-|[<-|[<-|[<-|[]]]]]; do 3 eexists; (split; [reflexivity|]); (split; [reflexivity|]); (split; [reflexivity|]); (split; [reflexivity|]); cbn [block_ty compile map prim_size]; first [exists 2%nat; reflexivity|exists 8%nat; reflexivity]. }
  destruct Q as (i & p & fo & Hc & E & Hr & Hf & D).
  destruct (C38_key_setup_in_memory c i p fo k (fips_key k) (compile true) 32 (repeat 9 300) Hc E Hr Hf (fips_key_ok k) (compile_follows true) D) as (m' & e & rks & A1 & A2 & A3 & A4 & A5 & [_ W] & _).
  { rewrite repeat_length. destruct k; cbn; lia. }
  assert (Lr : length (concat rks) = (16 * (nr_of k + 1))%nat).
  { rewrite <- A4. clear -A5. induction A5 as [|b l [B _] _ IH]; [reflexivity|]. cbn [concat length]. rewrite app_length, IH, B. lia. }
  exists i, p, fo, m', e, rks. do 6 (split; [assumption|]). rewrite !W, Lr. clear. destruct k; repeat split; reflexivity.
Qed.
(** The model run: the last round key of FIPS 197's AES-128 example appears in memory (NEON). *)
Goal (m <- m_keygen (compile true) P_neon false (Formulas (rot_first arm_sub_word) (rot_first arm_sub_word) (rot_first arm_sub_word) (sub_mid arm_sub_word)) K128 (fips_key K128) 32 (repeat 9 300) ;;
      Ret (contents m (Slice 192 16))) = Ret (nth 10 (round_keys K128 (fips_key K128)) []).
Proof. vm_compute. reflexivity. Abort.
(** A slice over one block too few would be undefined behaviour, and so would an array of blocks at an odd address. *)
Example C38_key_setup_wrong : raw_parts 4 160 32 44 = UB /\ raw_parts 4 176 33 44 = UB.
Proof. split; reflexivity. Qed.
