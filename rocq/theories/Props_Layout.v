(** C51: the memory of the block types and its reinterpretations.  C52: RV64's AES-192 key schedule and the layout of a tuple. *)
From Coq Require Import Lia Arith.
From Verif Require Import Word Interface Fips197 Spec_Api Spec_Cfg Spec_Layout Model_Cfg Model_Running Model_Columns Model_Rv64 Model_Rv32 Model_Layout.
From Verif Require Import Proof_Word Proof_Shift Proof_Fips Proof_Ok Proof_X86 Proof_Wide Proof_Rv64 Proof_KeySpec Proof_KeyRv64 Proof_Sem Proof_Layout Samples.
Open Scope nat_scope.

(** ** The types are packed *)
Definition block_parts (p : promised) : list nat :=
  match p with P_rv64 => [8; 8] | P_rv32 | P_software => [4; 4; 4; 4] | _ => [16] end.
Lemma pow_le_divide L t u : follows_the_reference L -> align (L t) <= align (L u) -> Nat.divide (align (L t)) (align (L u)).
Proof. intros F. destruct (align_pow L t F) as [a ->], (align_pow L u F) as [b ->]. apply pow2_divide. Qed.
Lemma block_packed L p : follows_the_reference L -> packed L (block_ty p) (block_parts p) /\ align (L (block_ty p)) <= 16 /\
  (In p [P_neon; P_rv32; P_constant_time] -> align (L (Prim U32)) <= align (L (block_ty p))).
Proof.
  intros F.
  assert (T : forall q, prim_size q = 16 -> packed L (Struct Transparent [Prim q]) [16] /\ align (L (Struct Transparent [Prim q])) <= 16 /\ align (L (Struct Transparent [Prim q])) = align (L (Prim q))).
  { intros q Q. pose proof (packed_prim L q F) as P. rewrite Q in P. destruct (packed_transparent L _ _ F P) as [P' A]. split; [exact P'|]. split; [|exact A]. rewrite A.
    pose proof (align_le L (Prim q) F) as LE. destruct (proj1 F (Prim q)) as (_ & _ & S & _). rewrite S, Q in LE. apply LE. lia. }
  assert (C : forall q n, n * prim_size q = 16 -> packed L (Struct (ReprC 4) (repeat (Prim q) n)) (times n [prim_size q]) /\ align (L (Struct (ReprC 4) (repeat (Prim q) n))) = 16).
  { intros q n Q. assert (0 < prim_size q) by (destruct q; cbn; lia). apply packed_fields; [exact F|now apply packed_prim|cbn; lia| |].
    - pose proof (align_le L (Prim q) F) as LE. destruct (proj1 F (Prim q)) as (_ & _ & S & _). rewrite S in LE. change (2 ^ 4) with 16. assert (prim_size q <= 16) by (destruct n; nia). lia.
    - cbn [total fold_right]. rewrite Nat.add_0_r, Q. apply Nat.divide_refl. }
  destruct F as [R U]. rewrite Forall_forall in U. pose proof (align_le L (Prim U32) (conj R (proj2 (Forall_forall _ _) U))) as LE. destruct (R (Prim U32)) as (_ & _ & S & _). rewrite S in LE. cbn [prim_size] in LE.
  destruct p; cbn [block_ty block_parts].
  1-3: destruct (T M128 eq_refl) as (P & A & _); split; [exact P|split; [exact A|intros [H|[H|[H|[]]]]; discriminate H]].
  - destruct (T Neon128 eq_refl) as (P & A & E). split; [exact P|]. split; [exact A|]. intros _. rewrite E. apply U. cbn. tauto.
  - destruct (C U64 2 eq_refl) as (P & A). split; [exact P|]. change [Prim U64; Prim U64] with (repeat (Prim U64) 2). split; [lia|intros [H|[H|[H|[]]]]; discriminate H].
  - destruct (C U32 4 eq_refl) as (P & A). split; [exact P|]. change [Prim U32; Prim U32; Prim U32; Prim U32] with (repeat (Prim U32) 4). split; [lia|]. intros _. lia.
  - destruct (T U128 eq_refl) as (P & A & E). split; [exact P|]. split; [exact A|]. intros _. rewrite E. apply U. cbn. tauto.
  - destruct (C U32 4 eq_refl) as (P & A). split; [exact P|]. change [Prim U32; Prim U32; Prim U32; Prim U32] with (repeat (Prim U32) 4). split; [lia|intros [H|[H|[H|[]]]]; discriminate H].
Qed.
Lemma block_total p : total (block_parts p) = 16. Proof. now destruct p. Qed.
Definition vaes2 (p : promised) : bool := match p with P_aesni_vaes4 | P_aesni_vaes2 => true | _ => false end.
Definition vaes4 (p : promised) : bool := match p with P_aesni_vaes4 => true | _ => false end.
Definition x2_parts (p : promised) : list nat := if vaes2 p then [32] else times 2 (block_parts p).
Definition x4_parts (p : promised) : list nat := if vaes4 p then [64] else times 2 (x2_parts p).
Lemma x2_total p : total (x2_parts p) = 32. Proof. now destruct p. Qed.
Lemma x4_total p : total (x4_parts p) = 64. Proof. now destruct p. Qed.
Lemma x2_packed L p : follows_the_reference L -> packed L (x2_ty p) (x2_parts p) /\ align (L (x2_ty p)) <= 32.
Proof.
  intros F. unfold x2_parts. destruct (vaes2 p) eqn:V.
  - assert (E : x2_ty p = Struct Transparent [Prim M256]) by (destruct p; try discriminate V; reflexivity). rewrite E. destruct (packed_transparent L _ _ F (packed_prim L M256 F)) as [P A]. split; [exact P|]. rewrite A.
    pose proof (align_le L (Prim M256) F) as LE. destruct (proj1 F (Prim M256)) as (_ & _ & S & _). rewrite S in LE. apply LE. cbn. lia.
  - assert (E : x2_ty p = Struct (ReprC 5) (repeat (block_ty p) 2)) by (destruct p; try discriminate V; reflexivity). rewrite E. destruct (block_packed L p F) as (P & A & _).
    destruct (packed_fields L _ 2 5 _ F P) as [Q B]; [rewrite block_total; lia|change (2 ^ 5) with 32; lia|rewrite block_total; exists 1; reflexivity|]. split; [exact Q|]. rewrite B. reflexivity.
Qed.
Lemma x4_packed L p : follows_the_reference L -> packed L (x4_ty p) (x4_parts p).
Proof.
  intros F. unfold x4_parts. destruct (vaes4 p) eqn:V.
  - assert (E : x4_ty p = Struct Transparent [Prim M512]) by (destruct p; try discriminate V; reflexivity). rewrite E. apply (packed_transparent L _ _ F (packed_prim L M512 F)).
  - assert (E : x4_ty p = Struct (ReprC 5) (repeat (x2_ty p) 2)) by (destruct p; try discriminate V; reflexivity). rewrite E. destruct (x2_packed L p F) as (P & A).
    destruct (packed_fields L _ 2 5 _ F P) as [Q B]; [rewrite x2_total; lia|change (2 ^ 5) with 32; lia|rewrite x2_total; exists 2; reflexivity|]. exact Q.
Qed.
Lemma bytes_packed L n : follows_the_reference L -> packed L (bytes_ty n) (times n [1]).
Proof. intros F. apply packed_array; [exact F|]. now apply (packed_prim L U8). Qed.

(** ** C51 *)
(** Sizes of the three public types, and of arrays of them; no byte of a value is padding. *)
Theorem C51_sizes_and_no_padding : forall c p L n, running c = Some p -> follows_the_reference L ->
  (size (L (block_ty p)) = 16 /\ size (L (x2_ty p)) = 32 /\ size (L (x4_ty p)) = 64 /\ size (L (Array (block_ty p) n)) = 16 * n) /\
  (no_padding L (block_ty p) /\ no_padding L (x2_ty p) /\ no_padding L (x4_ty p) /\ no_padding L (Array (block_ty p) n)).
Proof.
  intros c p L n _ F. destruct (block_packed L p F) as (P1 & _). destruct (x2_packed L p F) as (P2 & _). pose proof (x4_packed L p F) as P4. pose proof (packed_array L _ n _ F P1) as Pn. split.
  - rewrite (proj2 P1), (proj2 P2), (proj2 P4), (proj2 Pn), block_total, x2_total, x4_total, times_total, block_total. repeat split. lia.
  - split; [|split; [|split]]; eapply packed_full; eassumption.
Qed.
Print Assumptions C51_sizes_and_no_padding.
(** Every transmute of [new] is between types of one size, from a type without padding; every slice over an array of blocks covers the
    array exactly, is aligned, and the array has no padding. *)
Theorem C51_reinterpretations_are_sound : forall c p L, running c = Some p -> follows_the_reference L ->
  Forall (fun st => size (L (fst st)) = size (L (snd st)) /\ no_padding L (fst st)) (transmutes p) /\
  Forall (fun v => let '(t, u, n) := v in may_view L t u n /\ size (L (Array u n)) = size (L t) /\ no_padding L t) (views p).
Proof.
  intros c p L _ F. destruct (block_packed L p F) as (P1 & _ & A). destruct (x2_packed L p F) as (P2 & _). pose proof (x4_packed L p F) as P4. split.
  - assert (S1 : size (L (bytes_ty 16)) = size (L (block_ty p)) /\ no_padding L (bytes_ty 16)) by (split; [rewrite (proj2 (bytes_packed L 16 F)), (proj2 P1), times_total, block_total; reflexivity|eapply packed_full, bytes_packed, F]).
    assert (S2 : size (L (bytes_ty 32)) = size (L (x2_ty p)) /\ no_padding L (bytes_ty 32)) by (split; [rewrite (proj2 (bytes_packed L 32 F)), (proj2 P2), times_total, x2_total; reflexivity|eapply packed_full, bytes_packed, F]).
    assert (S4 : size (L (bytes_ty 64)) = size (L (x4_ty p)) /\ no_padding L (bytes_ty 64)) by (split; [rewrite (proj2 (bytes_packed L 64 F)), (proj2 P4), times_total, x4_total; reflexivity|eapply packed_full, bytes_packed, F]).
    destruct p; repeat (apply Forall_cons; [assumption|]); apply Forall_nil.
  - assert (V : In p [P_neon; P_rv32; P_constant_time] -> forall n, may_view L (Array (block_ty p) n) (Prim U32) (4 * n) /\ size (L (Array (Prim U32) (4 * n))) = size (L (Array (block_ty p) n)) /\ no_padding L (Array (block_ty p) n)).
    { intros I n. pose proof (packed_array L _ n _ F P1) as Pn. pose proof (packed_array L _ (4 * n) _ F (packed_prim L U32 F)) as Pu.
      assert (E : size (L (Array (Prim U32) (4 * n))) = size (L (Array (block_ty p) n))) by (rewrite (proj2 Pn), (proj2 Pu), !times_total, block_total; cbn [total fold_right prim_size]; lia).
      split; [|split; [exact E|eapply packed_full; eassumption]]. split; [lia|]. destruct (proj1 F (Array (block_ty p) n)) as (_ & _ & EA). rewrite EA. cbn [align]. apply pow_le_divide; [exact F|now apply A]. }
    destruct p; try apply Forall_nil; pose proof (V ltac:(cbn; tauto)) as Q; (apply Forall_cons; [exact (Q 11)|]; apply Forall_cons; [exact (Q 13)|]; apply Forall_cons; [exact (Q 15)|]; apply Forall_nil).
Qed.
Print Assumptions C51_reinterpretations_are_sound.

(** What the transmutes of [new] give, and the bytes of the value: what the model of each implementation says. *)
Definition fields32 (s : w4) : list N := [w_0 s; w_1 s; w_2 s; w_3 s].
Lemma le_id n l : length l = n -> bytes_ok l -> to_le n (of_le l) = l.
Proof. intros <-. apply to_le_of_le. Qed.
Lemma new_transmute be L ss u n v : follows_the_reference L -> packed L u ss -> total ss = n -> is_bytes n v ->
  transmute be L (bytes_ty n) u v = Some (map (of_ne be) (split ss v)).
Proof.
  intros F P T B. rewrite (packed_transmute be L _ u (times n [1]) ss) by (assumption || now apply bytes_packed || (rewrite times_total; cbn [total fold_right]; lia) || (rewrite times_length, (is_bytes_len _ _ B); cbn [length]; lia)).
  now rewrite image_bytes.
Qed.
Theorem C51_new_by_transmute : forall L v, follows_the_reference L -> is_bytes 16 v ->
  (exists x, r64_new v = Ret x /\ transmute false L (bytes_ty 16) (block_ty P_rv64) v = Some (fields64 x) /\ memory false L (block_ty P_rv64) (fields64 x) = map Some v) /\
  (exists x, r32_new v = Ret x /\ transmute false L (bytes_ty 16) (block_ty P_rv32) v = Some (fields32 x) /\ memory false L (block_ty P_rv32) (fields32 x) = map Some v) /\
  (forall p, In p [P_aesni; P_neon] -> transmute false L (bytes_ty 16) (block_ty p) v = Some [of_le v] /\ memory false L (block_ty p) [of_le v] = map Some v).
Proof.
  intros L v F B. pose proof B as [Lv Fv]. split; [|split].
  - destruct (block_packed L P_rv64 F) as (P & _). eexists. split; [reflexivity|]. split.
    + rewrite (new_transmute false L [8; 8]) by (assumption || reflexivity). reflexivity.
    + rewrite (packed_memory false L _ _ _ P) by reflexivity. f_equal. unfold image, fields64. cbn [block_parts map2 concat d_0 d_1]. unfold to_ne.
      rewrite app_nil_r. transitivity (firstn 8 v ++ skipn 8 v); [|apply firstn_skipn]. assert (L1 : length (firstn 8 v) = 8) by (rewrite firstn_length; lia). assert (L2 : length (skipn 8 v) = 8) by (rewrite skipn_length; lia).
      rewrite (firstn_all2 (skipn 8 v)) by lia. f_equal; apply le_id; (assumption || now apply bytes_ok_firstn || now apply bytes_ok_skipn).
  - destruct (block_packed L P_rv32 F) as (P & _). eexists. split; [reflexivity|]. split.
    + rewrite (new_transmute false L [4; 4; 4; 4]) by (assumption || reflexivity). reflexivity.
    + rewrite (packed_memory false L _ _ _ P) by reflexivity. f_equal. unfold image, fields32, r32_of_bytes. cbn [block_parts map2 concat chunks map w_0 w_1 w_2 w_3]. unfold to_ne.
      do 16 (destruct v as [|? v]; [discriminate Lv|]). destruct v; [|discriminate Lv]. cbn [firstn skipn]. unfold bytes_ok in Fv. rewrite !Forall_cons_iff in Fv. destruct Fv as (?&?&?&?&?&?&?&?&?&?&?&?&?&?&?&?&_).
      rewrite !(le_id 4) by (reflexivity || (repeat (apply Forall_cons; [assumption|]); apply Forall_nil)). reflexivity.
  - intros p Hp. assert (P : packed L (block_ty p) [16]) by (destruct Hp as [<-|[<-|[]]]; [apply (block_packed L P_aesni F)|apply (block_packed L P_neon F)]). split.
    + rewrite (new_transmute false L [16]) by (assumption || reflexivity). cbn [split map]. unfold of_ne. now rewrite firstn_all2 by lia.
    + rewrite (packed_memory false L _ _ _ P) by reflexivity. f_equal. unfold image. cbn [map2 concat]. unfold to_ne. rewrite app_nil_r. now apply le_id.
Qed.
Print Assumptions C51_new_by_transmute.
(** The vectors of the VAES builds, 32 and 64 bytes, likewise. *)
Theorem C51_wide_new_by_transmute : forall L p v, follows_the_reference L ->
  (In p [P_aesni_vaes2; P_aesni_vaes4] -> is_bytes 32 v ->
     transmute false L (bytes_ty 32) (x2_ty p) v = Some [of_le v] /\ memory false L (x2_ty p) [of_le v] = map Some v) /\
  (p = P_aesni_vaes4 -> is_bytes 64 v ->
     transmute false L (bytes_ty 64) (x4_ty p) v = Some [of_le v] /\ memory false L (x4_ty p) [of_le v] = map Some v).
Proof.
  intros L p v F.
  assert (Q : forall n t, packed L t [n] -> is_bytes n v -> transmute false L (bytes_ty n) t v = Some [of_le v] /\ memory false L t [of_le v] = map Some v).
  { intros n t P B. pose proof B as [Lv Fv]. split.
    - rewrite (new_transmute false L [n]) by (assumption || (cbn; lia)). cbn [split map]. unfold of_ne. now rewrite firstn_all2 by lia.
    - rewrite (packed_memory false L _ _ _ P) by reflexivity. f_equal. unfold image. cbn [map2 concat]. unfold to_ne. rewrite app_nil_r. now apply le_id. }
  split.
  - intros Hp B. apply Q; [|exact B]. destruct (x2_packed L p F) as [P _]. destruct Hp as [<-|[<-|[]]]; exact P.
  - intros -> B. apply Q; [|exact B]. exact (x4_packed L P_aesni_vaes4 F).
Qed.
Print Assumptions C51_wide_new_by_transmute.
(** two compilers, the values of an RV64 block *)
Example C51_new_case : follows_the_reference (compile false) /\ follows_the_reference (compile true) /\ is_bytes 16 fips_block /\
  transmute false (compile true) (bytes_ty 16) (block_ty P_rv64) fips_block = Some (map of_le [firstn 8 fips_block; skipn 8 fips_block]).
Proof. split; [apply compile_follows|]. split; [apply compile_follows|]. split; [apply fips_block_ok|]. vm_compute. reflexivity. Qed.
Example C51_sizes_case : map (fun p => map (fun t => (size (compile true t), align (compile true t))) [block_ty p; x2_ty p; x4_ty p]) [P_aesni_vaes4; P_aesni_vaes2; P_aesni; P_software] =
  [[(16, 16); (32, 32); (64, 64)]; [(16, 16); (32, 32); (64, 32)]; [(16, 16); (32, 32); (64, 32)]; [(16, 16); (32, 32); (64, 32)]].
Proof. reflexivity. Qed.

(** The array of [u32] columns that the key schedules of NEON, RV32 and the constant-time code write is, read as blocks, what their models say;
    and zeroed blocks are zero columns. *)
Lemma columns_transmute be L p n cols : follows_the_reference L -> length cols = 4 * n ->
  transmute be L (Array (Prim U32) (4 * n)) (Array (block_ty p) n) cols = Some (map (of_ne be) (concat (map (split (block_parts p)) (col_blocks be n cols)))).
Proof.
  intros F Lc. destruct (block_packed L p F) as (P & _). pose proof (packed_array L _ n _ F P) as Pn. pose proof (packed_array L _ (4 * n) _ F (packed_prim L U32 F)) as Pu. cbn [prim_size] in Pu.
  rewrite (packed_transmute be L _ _ _ _ cols Pu Pn); [|rewrite !times_total, block_total; cbn [total fold_right]; lia|rewrite times_length; cbn [length]; lia].
  rewrite split_times, block_total. rewrite <- Lc, image_words. reflexivity.
Qed.
Lemma split16 (ls : list (list N)) : Forall (fun b => length b <= 16) ls -> concat (map (split [16]) ls) = ls.
Proof. induction 1 as [|b ls H _ IH]; [reflexivity|]. cbn [map concat]. rewrite IH. cbn [split app]. now rewrite firstn_all2. Qed.
Lemma chunks_short {A} k n (l : list A) : Forall (fun b => length b <= k) (chunks k n l).
Proof. revert l. induction n as [|n IH]; intros l; [constructor|]. cbn [chunks]. constructor; [rewrite firstn_length; lia|apply IH]. Qed.
Theorem C51_columns_are_blocks : forall L n cols, follows_the_reference L -> length cols = 4 * n ->
  (forall be, transmute be L (Array (Prim U32) (4 * n)) (Array (block_ty P_constant_time) n) cols = Some (map (of_ne be) (col_blocks be n cols))) /\
  transmute false L (Array (Prim U32) (4 * n)) (Array (block_ty P_neon) n) cols = Some (map of_le (col_blocks false n cols)) /\
  transmute false L (Array (Prim U32) (4 * n)) (Array (block_ty P_rv32) n) cols = Some (flat_map fields32 (map r32_of_bytes (col_blocks false n cols))).
Proof.
  intros L n cols F Lc. split; [|split].
  - intros be. rewrite columns_transmute by assumption. now rewrite split16 by apply chunks_short.
  - rewrite columns_transmute by assumption. now rewrite split16 by apply chunks_short.
  - rewrite columns_transmute by assumption. f_equal. induction (col_blocks false n cols) as [|b l IH]; [reflexivity|]. cbn [map concat flat_map]. rewrite map_app, IH. reflexivity.
Qed.
Print Assumptions C51_columns_are_blocks.
Theorem C51_zeroed_blocks_are_zero_columns : forall be L p n, follows_the_reference L ->
  transmute be L (Array (block_ty p) n) (Array (Prim U32) (4 * n)) (repeat 0%N (length (parts L (Array (block_ty p) n)))) = Some (repeat 0%N (4 * n)).
Proof.
  intros be L p n F. destruct (block_packed L p F) as (P & _). pose proof (packed_array L _ n _ F P) as Pn. pose proof (packed_array L _ (4 * n) _ F (packed_prim L U32 F)) as Pu. cbn [prim_size] in Pu.
  assert (FL : forall o ss, length (from o ss) = length ss) by (intros o ss; revert o; induction ss as [|s ss IH]; intros o; [reflexivity|]; cbn [from length]; now rewrite IH).
  rewrite (packed_transmute be L _ _ _ _ _ Pn Pu); [|rewrite !times_total, block_total; cbn [total fold_right]; lia|rewrite repeat_length, (proj1 Pn); apply FL].
  assert (Z : forall s, to_ne be s 0%N = repeat 0%N s).
  { intros s. unfold to_ne, to_be. assert (T : to_le s 0%N = repeat 0%N s) by (induction s as [|s IH]; [reflexivity|]; cbn [to_le repeat]; rewrite <- IH; reflexivity). destruct be; rewrite T; [|reflexivity].
    clear. induction s as [|s IH]; [reflexivity|]. cbn [repeat rev]. rewrite IH. clear. induction s; [reflexivity|]. cbn [repeat app]. now f_equal. }
  assert (I : forall ss, image be ss (repeat 0%N (length ss)) = repeat 0%N (total ss)).
  { intros ss. unfold image. induction ss as [|s ss IH]; [reflexivity|]. cbn [length repeat map2 concat total fold_right]. fold (total ss). now rewrite IH, Z, repeat_app. }
  rewrite (proj1 Pn), FL, I, times_total, block_total. f_equal. clear -Z. replace (n * 16) with (4 * n * 4) by lia. generalize (4 * n) as m. induction m as [|m IH]; [reflexivity|].
  cbn [times app split map repeat]. replace (S m * 4) with (4 + m * 4) by lia. rewrite repeat_app. rewrite firstn_exact, skipn_exact by (now rewrite repeat_length). rewrite IH. f_equal. destruct be; reflexivity.
Qed.
Print Assumptions C51_zeroed_blocks_are_zero_columns.
Example C51_columns_case : length (map N.of_nat (seq 1 44)) = 4 * 11 /\
  option_map (firstn 5) (transmute false (compile true) (Array (Prim U32) 44) (Array (block_ty P_rv32) 11) (map N.of_nat (seq 1 44))) = Some [1%N; 2%N; 3%N; 4%N; 5%N].
Proof. split; [reflexivity|]. vm_compute. reflexivity. Qed.

(** ** C52: the order in which RV64's [keygen_192] finds its words again *)
Definition declaration_order (L : compiler) : Prop :=
  offsets (L state_ty) = [0; 8; 16] /\ offsets (L states_ty) = [0; 24; 48; 72; 96; 120; 144; 168; 192; 200].
Definition right_schedule (L : compiler) (key : list N) : Prop :=
  exists blocks, r64_keygen_192_by L key = Ret (Some blocks) /\ map r64_bytes blocks = round_keys K192 key.

Lemma parts_u64 L : parts L (Prim U64) = [(0, 8)]. Proof. reflexivity. Qed.
Lemma pairs_fields bs : pairs64 (flat_map fields64 bs) = bs.
Proof. induction bs as [|[a b] bs IH]; [reflexivity|]. cbn [flat_map fields64 app pairs64 d_0 d_1]. now rewrite IH. Qed.
Lemma words_back n v : length v = n -> Forall (fun x => (x < 2 ^ 64)%N) v -> map (of_ne false) (split (times n [8]) (image false (times n [8]) v)) = v.
Proof.
  intros <- F. rewrite image_words. induction F as [|x v X _ IH]; [reflexivity|]. cbn [length times app map concat split]. rewrite firstn_exact, skipn_exact by apply to_ne_len. cbn [map]. rewrite IH. f_equal.
  unfold of_ne, to_ne. now apply of_le_to_le.
Qed.
Lemma blocks13_packed L : follows_the_reference L -> packed L (Array (block_ty P_rv64) 13) (times 26 [8]).
Proof. intros F. destruct (block_packed L P_rv64 F) as (P & _). exact (packed_array L _ 13 _ F P). Qed.
Lemma words_of key : is_bytes 24 key -> let v := flat_map fields64 (map r64_of (round_keys K192 key)) in
  length v = 26 /\ Forall (fun x => (x < 2 ^ 64)%N) v /\ concat (map (to_le 8) v) = concat (round_keys K192 key).
Proof.
  intros K. pose proof (round_keys_bytes K192 key K) as RB. assert (L13 : length (round_keys K192 key) = 13) by (unfold round_keys; now rewrite map_length, seq_length). cbv zeta. split; [|split].
  - assert (Q : forall bs, length (flat_map fields64 bs) = 2 * length bs) by (induction bs as [|b bs IH]; [reflexivity|]; cbn [flat_map fields64 app length]; lia). rewrite Q, map_length. rewrite L13. reflexivity.
  - clear L13. induction RB as [|b bs B _ IH]; [constructor|]. cbn [map flat_map]. apply Forall_app. split; [|exact IH]. destruct B as [Lb Fb].
    unfold r64_of, fields64. cbn [d_0 d_1]. repeat constructor; (eapply N.lt_le_trans; [apply of_le_lt|]); repeat (apply bytes_ok_firstn || apply bytes_ok_skipn); try exact Fb; rewrite ?firstn_length, ?skipn_length, ?Lb; reflexivity.
  - clear L13. induction RB as [|b bs B _ IH]; [reflexivity|]. cbn [map flat_map concat fields64 app]. rewrite IH. rewrite app_assoc. f_equal. exact (r64_bytes_of b B).
Qed.
Lemma by_transmute L key : is_bytes 24 key ->
  r64_keygen_192_by L key = Ret (option_map pairs64 (transmute false L states_ty (Array (block_ty P_rv64) 13) (flat_map fields64 (map r64_of (round_keys K192 key))))).
Proof. intros K. unfold r64_keygen_192_by. rewrite r64_key_192 by exact K. reflexivity. Qed.
Lemma tuple_offsets L fs : follows_the_reference L -> length (offsets (L (Tuple fs))) = length fs.
Proof.
  intros [R _]. destruct (R (Tuple fs)) as (_ & _ & Q). unfold Tuple in *. assert (RR : rust_rules (map L fs) (L (Struct Auto fs))) by (destruct fs as [|? [|]]; exact Q). destruct RR as (E & _). now rewrite E, map_length.
Qed.
Lemma states_parts L : follows_the_reference L -> exists a b c p0 p1 p2 p3 p4 p5 p6 p7 p8 p9,
  offsets (L state_ty) = [a; b; c] /\ offsets (L states_ty) = [p0; p1; p2; p3; p4; p5; p6; p7; p8; p9] /\
  parts L states_ty = flat_map (fun p => [(p + (a + 0), 8); (p + (b + 0), 8); (p + (c + 0), 8)]) [p0; p1; p2; p3; p4; p5; p6; p7] ++ [(p8 + 0, 8); (p9 + 0, 8)].
Proof.
  intros F. pose proof (tuple_offsets L [Prim U64; Prim U64; Prim U64] F) as O3. pose proof (tuple_offsets L (repeat state_ty 8 ++ [Prim U64; Prim U64]) F) as O10.
  fold state_ty in O3. fold states_ty in O10. cbn [length repeat app] in O3, O10.
  destruct (offsets (L state_ty)) as [|a [|b [|c [|]]]] eqn:E3; try discriminate O3.
  destruct (offsets (L states_ty)) as [|p0 [|p1 [|p2 [|p3 [|p4 [|p5 [|p6 [|p7 [|p8 [|p9 [|]]]]]]]]]]] eqn:E10; try discriminate O10.
  exists a, b, c, p0, p1, p2, p3, p4, p5, p6, p7, p8, p9. split; [reflexivity|]. split; [reflexivity|].
  assert (P3 : parts L state_ty = [(a + 0, 8); (b + 0, 8); (c + 0, 8)]).
  { unfold state_ty, Tuple in *. rewrite parts_struct, E3. reflexivity. }
  unfold states_ty at 1, Tuple at 1. rewrite parts_struct. fold states_ty. change (Struct Auto (repeat state_ty 8 ++ [Prim U64; Prim U64])) with states_ty. rewrite E10.
  cbn [repeat app map]. rewrite P3, parts_u64. reflexivity.
Qed.
Lemma tidy_states L : follows_the_reference L -> tidy (size (L states_ty)) (parts L states_ty).
Proof.
  intros F. assert (T : tidy (size (L state_ty)) (parts L state_ty)) by (apply tidy_tuple; [exact F|]; repeat (apply Forall_cons; [now apply tidy_prim|]); apply Forall_nil).
  apply tidy_tuple; [exact F|]. cbn [repeat app]. do 8 (apply Forall_cons; [exact T|]). do 2 (apply Forall_cons; [now apply tidy_prim|]). apply Forall_nil.
Qed.
(** What is read as words, when all is initialised, is the bytes. *)
Lemma all_some_inv {A} (l : list (option A)) r : all_some l = Some r -> l = map Some r.
Proof.
  revert r. induction l as [|[x|] l IH]; intros r H; [injection H as <-; reflexivity| |discriminate H]. cbn [all_some] in H. destruct (all_some l) as [r'|]; [|discriminate H]. injection H as <-. cbn [map]. f_equal. now apply IH.
Qed.
Lemma read_words m : Forall (fun x => match x with Some b => (b < 256)%N | None => True end) m -> forall n o ws, length m = o + 8 * n ->
  all_some (map (fun c => option_map (of_ne false) (all_some (firstn (snd c) (skipn (fst c) m)))) (from o (times n [8]))) = Some ws ->
  skipn o m = map Some (concat (map (to_le 8) ws)) /\ length ws = n.
Proof.
  intros B. induction n as [|n IH]; intros o ws Lm H.
  - injection H as <-. rewrite skipn_all2 by lia. now split.
  - cbn [times app from map fst snd all_some] in H. destruct (all_some (firstn 8 (skipn o m))) as [b|] eqn:E; [|discriminate H]. cbn [option_map] in H.
    destruct (all_some (map _ (from (o + 8) (times n [8])))) as [r|] eqn:E'; [|discriminate H]. injection H as <-. apply all_some_inv in E.
    destruct (IH (o + 8) r ltac:(lia) E') as [Q Lr]. split; [|cbn [length]; now rewrite Lr]. cbn [map concat]. rewrite map_app, <- Q. rewrite <- (firstn_skipn 8 (skipn o m)), E, skipn_skipn. rewrite (Nat.add_comm 8 o). f_equal. f_equal.
    symmetry. apply (le_id 8).
    + apply (f_equal (@length _)) in E. rewrite map_length in E. rewrite <- E, firstn_length, skipn_length. lia.
    + assert (Fb : Forall (fun x => match x with Some b => (b < 256)%N | None => True end) (map Some b)).
      { rewrite <- E. apply Forall_forall. intros x Hx. rewrite Forall_forall in B. apply B. rewrite <- (firstn_skipn o m). apply in_or_app. right. rewrite <- (firstn_skipn 8 (skipn o m)). apply in_or_app. now left. }
      apply Forall_map in Fb. exact Fb.
Qed.
Lemma memory_bytes be L t v : Forall (fun x => match x with Some b => (b < 256)%N | None => True end) (memory be L t v).
Proof.
  unfold memory. apply Forall_map, Forall_forall. intros j _. destruct (find _ _) as [[[o s] x]|]; [|exact I]. cbn [option_map fst snd].
  assert (Q : bytes_ok (to_ne be s x)) by (unfold to_ne, to_be; destruct be; [apply Forall_rev|]; apply to_le_ok). clear -Q. revert Q. generalize (to_ne be s x) as l. generalize (j - o) as i. intros i l. revert i.
  induction l as [|y l IH]; intros [|i] Q; try reflexivity; apply Forall_cons_iff in Q as [Q Q']; [exact Q|]. cbn [nth]. now apply IH.
Qed.
Lemma pairs_concat ws : Nat.even (length ws) = true -> concat (map r64_bytes (pairs64 ws)) = concat (map (to_le 8) ws).
Proof.
  revert ws. fix IH 1. intros [|a [|b ws]] E; [reflexivity|discriminate E|]. cbn [pairs64 map concat]. rewrite (IH ws E). unfold r64_bytes. cbn [d_0 d_1]. now rewrite <- app_assoc.
Qed.
(** The AES-192 key of FIPS-197 has a schedule whose 8-byte windows tell where they are. *)
Definition schedule_bytes : list N := [
   0; 1; 2; 3; 4; 5; 6; 7; 8; 9; 10; 11; 12; 13; 14; 15;
   16; 17; 18; 19; 20; 21; 22; 23; 88; 70; 242; 249; 92; 67; 244; 254;
   84; 74; 254; 245; 88; 71; 240; 250; 72; 86; 226; 233; 92; 67; 244; 254;
   64; 249; 73; 179; 28; 186; 189; 77; 72; 240; 67; 184; 16; 183; 179; 66;
   88; 225; 81; 171; 4; 162; 165; 85; 126; 255; 181; 65; 98; 69; 8; 12;
   42; 181; 75; 180; 58; 2; 248; 246; 98; 227; 169; 93; 102; 65; 12; 8;
   245; 1; 133; 114; 151; 68; 141; 126; 189; 241; 198; 202; 135; 243; 62; 60;
   229; 16; 151; 97; 131; 81; 155; 105; 52; 21; 124; 158; 163; 81; 241; 224;
   30; 160; 55; 42; 153; 83; 9; 22; 124; 67; 158; 119; 255; 18; 5; 30;
   221; 126; 14; 136; 126; 47; 255; 104; 96; 143; 200; 66; 249; 220; 193; 84;
   133; 159; 95; 35; 122; 141; 90; 61; 192; 192; 41; 82; 190; 239; 214; 58;
   222; 96; 30; 120; 39; 188; 223; 44; 162; 35; 128; 15; 216; 174; 218; 50;
   164; 151; 10; 51; 26; 120; 220; 9; 196; 24; 194; 113; 227; 164; 29; 93]%N.
Lemma schedule_ok : concat (round_keys K192 (fips_key K192)) = schedule_bytes.
Proof. vm_compute. reflexivity. Qed.
Fixpoint same (a b : list N) : bool := match a, b with [], [] => true | x :: a, y :: b => N.eqb x y && same a b | _, _ => false end.
Lemma same_refl a : same a a = true.
Proof. induction a as [|x a IH]; [reflexivity|]. cbn [same]. now rewrite N.eqb_refl, IH. Qed.
Definition window (o : nat) (l : list N) : list N := firstn 8 (skipn o l).
Lemma windows_differ : forallb (fun j => forallb (fun o => implb (same (window o schedule_bytes) (window (8 * j) schedule_bytes)) (o =? 8 * j)) (seq 0 201)) (seq 0 26) = true.
Proof. vm_compute. reflexivity. Qed.
Lemma window_unique o j : o <= 200 -> j < 26 -> window o schedule_bytes = window (8 * j) schedule_bytes -> o = 8 * j.
Proof.
  intros Ho Hj E. pose proof windows_differ as W. rewrite forallb_forall in W. assert (Ij : In j (seq 0 26)) by (apply in_seq; lia). apply W in Ij. rewrite forallb_forall in Ij.
  assert (Io : In o (seq 0 201)) by (apply in_seq; lia). apply Ij in Io. rewrite E, same_refl in Io. cbn [implb] in Io. now apply Nat.eqb_eq.
Qed.
Lemma window_of_words v j : j < length v -> window (8 * j) (concat (map (to_le 8) v)) = to_le 8 (nth j v 0%N).
Proof.
  revert j. induction v as [|x v IH]; intros j H; [cbn in H; lia|]. unfold window. cbn [map concat]. destruct j as [|j].
  - cbn [Nat.mul skipn nth]. apply firstn_exact, to_le_length.
  - replace (8 * S j) with (8 * j + 8) by lia. rewrite <- skipn_skipn, skipn_exact by apply to_le_length. cbn [nth]. apply IH. cbn [length] in H. lia.
Qed.
Lemma nth_ext_window o (s : list N) w : length w = 8 -> o + 8 <= length s -> (forall k, k < 8 -> nth (o + k) s 0%N = nth k w 0%N) -> window o s = w.
Proof.
  intros Lw Ls H. unfold window. apply (nth_ext _ _ 0%N 0%N); [rewrite firstn_length, skipn_length; lia|]. intros k Hk. rewrite firstn_length, skipn_length in Hk.
  assert (K8 : k < 8) by lia. rewrite <- (H k K8). rewrite <- (firstn_skipn o s) at 2. rewrite (app_nth2 (firstn o s)) by (rewrite firstn_length; lia). rewrite firstn_length, Nat.min_l by lia. replace (o + k - o) with k by lia.
  rewrite <- (firstn_skipn 8 (skipn o s)) at 2. rewrite app_nth1; [reflexivity|]. rewrite firstn_length, skipn_length. lia.
Qed.
Lemma order_found L : follows_the_reference L -> size (L states_ty) = 208 -> right_schedule L (fips_key K192) -> declaration_order L.
Proof.
  intros F S. pose proof (blocks13_packed L F) as PB. destruct (states_parts L F) as (a & b & c & p0 & p1 & p2 & p3 & p4 & p5 & p6 & p7 & p8 & p9 & E3 & E10 & EP).
  intros H. pose proof (fips_key_ok K192) as KB. destruct H as (blocks & R & RK). rewrite by_transmute in R by exact KB. destruct (words_of _ KB) as (Lv & Fv & Cv). rewrite schedule_ok in Cv.
    set (v := flat_map fields64 (map r64_of (round_keys K192 (fips_key K192)))) in *. clearbody v.
    destruct (transmute false L states_ty (Array (block_ty P_rv64) 13) v) as [ws|] eqn:ET; [|discriminate R]. cbn [option_map] in R. injection R as <-.
    unfold transmute in ET. destruct (size (L states_ty) =? size (L (Array (block_ty P_rv64) 13))); [|discriminate ET].
    unfold typed_read in ET. rewrite (proj1 PB) in ET. assert (LM : length (memory false L states_ty v) = 0 + 8 * 26) by (unfold memory; rewrite map_length, seq_length; exact S).
    destruct (read_words _ (memory_bytes false L states_ty v) 26 0 ws LM ET) as [M Lw]. cbn [skipn] in M. rewrite <- pairs_concat in M by (now rewrite Lw). rewrite RK, schedule_ok in M. clear ET RK.
    assert (W : forall j, j < 26 -> snd (nth j (parts L states_ty) (0, 0)) = 8 -> fst (nth j (parts L states_ty) (0, 0)) = 8 * j).
    { intros j Hj S8. pose proof (tidy_states L F) as T. assert (LP : length (parts L states_ty) = 26) by (rewrite EP; reflexivity).
      pose proof T as [T1 _]. rewrite Forall_forall in T1. pose proof (T1 _ (nth_In _ (0, 0) ltac:(rewrite LP; exact Hj))) as BD. rewrite S8, S in BD.
      apply window_unique; [lia|exact Hj|]. rewrite <- Cv at 2. rewrite window_of_words by (rewrite Lv; exact Hj). apply nth_ext_window; [apply to_le_length|change (length schedule_bytes) with 208; lia|].
      intros k Hk. pose proof (find_part false _ _ v j k T ltac:(rewrite LP; exact Lv) ltac:(rewrite LP; exact Hj) ltac:(rewrite S8; exact Hk)) as FP. rewrite S8 in FP.
      set (o := fst (nth j (parts L states_ty) (0, 0))) in *. unfold memory in M. apply (f_equal (fun l => nth (o + k) l None)) in M.
      rewrite (nth_indep _ None (byte_at false (combine (parts L states_ty) v) 0)) in M by (rewrite map_length, seq_length; lia).
      change (fun j : nat => option_map _ (find _ (combine (parts L states_ty) v))) with (byte_at false (combine (parts L states_ty) v)) in M. rewrite map_nth, seq_nth in M by lia. cbn [Nat.add] in M. rewrite FP in M.
      rewrite (nth_indep _ None (Some 0%N)) in M by (rewrite map_length; change (length schedule_bytes) with 208; lia). rewrite map_nth in M. injection M as M. symmetry. exact M. }
    rewrite EP in W. cbn [flat_map app] in W.
    pose proof (W 0 ltac:(lia) eq_refl) as Q0. pose proof (W 1 ltac:(lia) eq_refl) as Q1. pose proof (W 2 ltac:(lia) eq_refl) as Q2. pose proof (W 3 ltac:(lia) eq_refl) as Q3. pose proof (W 6 ltac:(lia) eq_refl) as Q6.
    pose proof (W 9 ltac:(lia) eq_refl) as Q9. pose proof (W 12 ltac:(lia) eq_refl) as Q12. pose proof (W 15 ltac:(lia) eq_refl) as Q15. pose proof (W 18 ltac:(lia) eq_refl) as Q18. pose proof (W 21 ltac:(lia) eq_refl) as Q21.
    pose proof (W 24 ltac:(lia) eq_refl) as Q24. pose proof (W 25 ltac:(lia) eq_refl) as Q25. clear W. cbn [nth fst] in *.
    unfold declaration_order. rewrite E3, E10. split; repeat f_equal; lia.
Qed.
(** RV64's AES-192 encryption key schedule is right for every key exactly if the compiler lays the nested tuple out in declaration order. *)
Theorem C52_right_iff_declaration_order : forall L, follows_the_reference L -> size (L states_ty) = 208 ->
  ((forall key, is_bytes 24 key -> right_schedule L key) <-> declaration_order L).
Proof.
  intros L F S. pose proof (blocks13_packed L F) as PB. destruct (states_parts L F) as (a & b & c & p0 & p1 & p2 & p3 & p4 & p5 & p6 & p7 & p8 & p9 & E3 & E10 & EP). split.
  - intros H. apply order_found; [exact F|exact S|]. exact (H _ (fips_key_ok K192)).
  - intros [D3 D10] key KB. unfold right_schedule. rewrite by_transmute by exact KB. destruct (words_of key KB) as (Lv & Fv & Cv). rewrite D3 in E3. rewrite D10 in E10. injection E3 as <- <- <-. injection E10 as <- <- <- <- <- <- <- <- <- <-.
    assert (PS : packed L states_ty (times 26 [8])) by (split; [rewrite EP; reflexivity|rewrite S; reflexivity]).
    rewrite (packed_transmute false L _ _ _ _ _ PS PB) by (reflexivity || (rewrite Lv; reflexivity)). rewrite words_back by assumption. eexists. split; [reflexivity|]. rewrite pairs_fields.
    pose proof (round_keys_bytes K192 key KB) as RB. rewrite map_map. rewrite <- (map_id (round_keys K192 key)) at 2. apply map_ext_in. intros x Hx. rewrite Forall_forall in RB. apply r64_bytes_of. now apply RB.
Qed.
Print Assumptions C52_right_iff_declaration_order.
(** Otherwise the schedule of a key of FIPS-197 is wrong. *)
Theorem C52_wrong_otherwise : forall L, follows_the_reference L -> size (L states_ty) = 208 -> ~ declaration_order L ->
  is_bytes 24 (fips_key K192) /\ ~ right_schedule L (fips_key K192).
Proof. intros L F S N. split; [exact (fips_key_ok K192)|]. intros H. exact (N (order_found L F S H)). Qed.
Print Assumptions C52_wrong_otherwise.
(** The reference promises no such order: "RV64's schedule is right whatever the reference allows the compiler to do" is false. *)
Theorem C52_any_permitted_layout_refuted :
  ~ (forall L, follows_the_reference L -> size (L states_ty) = 208 -> forall key, is_bytes 24 key -> right_schedule L key).
Proof.
  intros H. assert (D : declaration_order (compile true)).
  { apply (proj1 (C52_right_iff_declaration_order _ (compile_follows true) eq_refl)). exact (H _ (compile_follows true) eq_refl). }
  destruct D as [D _]. discriminate D.
Qed.
Print Assumptions C52_any_permitted_layout_refuted.
(** A compiler of the kind the theorem asks for, whose schedules are right; and one whose schedules are wrong, though it follows the reference too. *)
Example C52_forwards : follows_the_reference (compile false) /\ size (compile false states_ty) = 208 /\ forall key, is_bytes 24 key -> right_schedule (compile false) key.
Proof.
  split; [apply compile_follows|]. split; [reflexivity|]. apply (proj2 (C52_right_iff_declaration_order _ (compile_follows false) eq_refl)). split; reflexivity.
Qed.
Example C52_backwards : follows_the_reference (compile true) /\ size (compile true states_ty) = 208 /\
  offsets (compile true states_ty) = [184; 160; 136; 112; 88; 64; 40; 16; 8; 0].
Proof. split; [apply compile_follows|]. split; reflexivity. Qed.
