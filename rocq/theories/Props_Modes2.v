(** C59: CMAC, XTS with ciphertext stealing and key wrap on top of the crate. *)
From Coq Require Import Lia Arith ZifyN ZifyNat.
From Verif Require Import Word Interface Fips197 Spec_Api Spec_Reach Spec_Cfg Spec_User Spec_Modes2 Model_Lib Model_Cfg.
From Verif Require Import Proof_Shape Proof_Word Proof_Fips Proof_Ok Proof_Sem Proof_Lib Proof_Inst Proof_Main Samples Props_Batch Props_Cipher Props_Modes Proof_Machine Proof_Cmac Proof_Xts Proof_Wrap.
Open Scope N_scope.

(** ** CMAC: on a conforming build, for every key size, key and message, the tag is that of SP 800-38B. *)
Theorem C59_cmac : forall c i k dbg key m,
  impl_of c = Some i -> conforming c = true -> is_bytes (key_len k) key -> bytes_ok m -> cmac_tag i k dbg key m = Ret (cmac (aes_encrypt k key) m).
Proof.
  intros c i k dbg key m E C Hk F. destruct (conforming_machine c i E C) as (f1 & f4 & M & K). now apply (cmac_tag_ok i f1 f4 M k key _ _ (K k key Hk) dbg m).
Qed.
Print Assumptions C59_cmac.

(** ** XTS: on a conforming build, for every pair of keys, number of the data unit and text of at least one block, the program is XTS-AES of
    IEEE 1619, ciphertext stealing included; *)
Lemma start_ok i f1 f4 k key f g n : embeds i f1 f4 -> keyed i f1 f4 k key f g ->
  exists t, xts_start i k key n = Ret t /\ t < 2 ^ 128 /\ to_le 16 t = f (to_le 16 n).
Proof.
  intros M (e & d & Ee & _ & (R1 & R2 & _) & _). pose proof (em1 _ _ _ M) as D. pose proof (to_le_bytes n) as T. pose proof (R1 _ T) as Y.
  exists (of_le (f (to_le 16 n))). split; [|split; [now apply of_le_128|]].
  - unfold xts_start. rewrite Ee. cbn [bind]. rewrite (dk_from _ _ _ D) by exact T. cbn [bind]. rewrite R2 by exact T. cbn [bind]. rewrite (to_bytes_ok _ 16 f1) by assumption. reflexivity.
  - destruct Y as [L Fy]. rewrite <- L at 1. now apply to_le_of_le.
Qed.
Lemma unit_spec_ext h d t t' text : (forall j, t j = t' j) -> unit_spec h d t text = unit_spec h d t' text.
Proof.
  intros H. unfold unit_spec. cbv zeta. rewrite !(whole_ext h t t') by (intros; apply H). destruct d; now rewrite !H.
Qed.
Lemma xts_ok i f1 f4 k key1 key2 f g f' g' dbg n text : embeds i f1 f4 -> keyed i f1 f4 k key1 f g -> keyed i f1 f4 k key2 f' g' -> bytes_ok text -> (16 <= length text)%nat ->
  xts_encrypt_unit i k dbg key1 key2 n text = Ret (unit_spec f false (tweak_of f' n) text) /\ xts_decrypt_unit i k dbg key1 key2 n text = Ret (unit_spec g true (tweak_of f' n) text).
Proof.
  intros M K1 K2 F L. destruct (start_ok i f1 f4 k key2 f' g' n M K2) as (t & S & Ht & Et). destruct K1 as (e & d & Ee & Ed & R & R').
  assert (TW : forall j, tw t j = tweak_of f' n j) by (intros j; unfold tweak_of; rewrite <- Et; now apply tw_alpha).
  split; [unfold xts_encrypt_unit; rewrite Ee|unfold xts_decrypt_unit; rewrite Ed]; cbn [bind]; rewrite S; cbn [bind].
  - rewrite (xts_data_unit_ok i f1 f4 M _ _ _ R) by assumption. f_equal. now apply unit_spec_ext.
  - rewrite (xts_data_unit_ok i f1 f4 M _ _ _ R') by assumption. f_equal. now apply unit_spec_ext.
Qed.
Theorem C59_xts : forall c i k dbg key1 key2 unit_number text,
  impl_of c = Some i -> conforming c = true -> is_bytes (key_len k) key1 -> is_bytes (key_len k) key2 -> bytes_ok text -> (16 <= length text)%nat ->
  xts_encrypt_unit i k dbg key1 key2 unit_number text = Ret (xts_encrypt (aes_encrypt k key1) (aes_encrypt k key2) unit_number text) /\
  xts_decrypt_unit i k dbg key1 key2 unit_number text = Ret (xts_decrypt (aes_decrypt k key1) (aes_encrypt k key2) unit_number text).
Proof.
  intros c i k dbg key1 key2 n text E C H1 H2 F L. destruct (conforming_machine c i E C) as (f1 & f4 & M & K). exact (xts_ok i f1 f4 k key1 key2 _ _ _ _ dbg n text M (K k key1 H1) (K k key2 H2) F L).
Qed.
Print Assumptions C59_xts.
(** and on every build but the RV32 one decryption gives back the text, and the length does not change. *)
Theorem C59_xts_round_trip : forall c i k dbg dbg' key1 key2 unit_number text,
  impl_of c = Some i -> rv32_zk c = false -> is_bytes (key_len k) key1 -> is_bytes (key_len k) key2 -> bytes_ok text -> (16 <= length text)%nat ->
  exists y, xts_encrypt_unit i k dbg key1 key2 unit_number text = Ret y /\ length y = length text /\ xts_decrypt_unit i k dbg' key1 key2 unit_number y = Ret text.
Proof.
  intros c i k dbg dbg' key1 key2 n text E C H1 H2 F L. destruct (fips_machine c i E C) as (f1 & f4 & M & K). destruct (K k key1 H1) as (f & g & K1 & I). destruct (K k key2 H2) as (f' & g' & K2 & _).
  destruct (xts_ok i f1 f4 k key1 key2 f g f' g' dbg n text M K1 K2 F L) as [Y _]. exists (unit_spec f false (tweak_of f' n) text). split; [exact Y|].
  assert (B : (forall x, is_bytes 16 x -> is_bytes 16 (f x)) /\ forall x, is_bytes 16 x -> is_bytes 16 (g x)) by (destruct K1 as (e & d & _ & _ & (A & _) & (A' & _)); now split). destruct B as [Bf Bg].
  assert (T : forall j, is_bytes 16 (tweak_of f' n j)).
  { destruct (start_ok i f1 f4 k key2 f' g' n M K2) as (t & _ & Ht & Et). intros j. unfold tweak_of. rewrite <- Et, <- tw_alpha by exact Ht. apply to_le_bytes. }
  destruct (unit_back f g Bf Bg (fun x Hx => proj1 (I x Hx)) (tweak_of f' n) text T F L) as (U & Lu & Fu). split; [exact Lu|].
  destruct (xts_ok i f1 f4 k key1 key2 f g f' g' dbg' n _ M K1 K2 Fu ltac:(lia)) as [_ Z]. now rewrite Z, U.
Qed.
Print Assumptions C59_xts_round_trip.

(** ** Key wrap: on a conforming build, for every key-encryption key and all key data of whole semiblocks, the programs are KW-AE and KW-AD of
    SP 800-38F; *)
Lemma semiblocks_good n p : is_bytes (8 * n) p -> length (semiblocks p) = n /\ Forall (is_bytes 8) (semiblocks p) /\ concat (semiblocks p) = p.
Proof.
  intros [L F]. unfold semiblocks. rewrite L. rewrite (Nat.mul_comm 8 n), Nat.div_mul by discriminate. split; [apply Proof_X86.chunks_length|]. split.
  - apply Forall_forall. intros c Hc. destruct (in_chunks _ _ _ _ Hc) as (_ & A & B). split; [apply A; lia|now apply B].
  - apply Proof_X86.chunks_concat. exact L.
Qed.
Lemma back_to_bytes r : Forall (is_bytes 8) r -> flat_map (to_be 8) (map of_be r) = concat r.
Proof. induction 1 as [|x r X _ IH]; [reflexivity|]. cbn [map flat_map concat]. now rewrite (be_back 8) by exact X; rewrite IH. Qed.
Lemma icv1_bytes : is_bytes 8 icv1. Proof. apply is_bytesb_correct. reflexivity. Qed.
Lemma six_ok j l : In j (seq 0 6) \/ In j (rev (seq 0 6)) -> l = j -> (l < 6)%nat.
Proof. intros [H|H] ->; [|apply in_rev in H]; apply in_seq in H; lia. Qed.
Lemma wrap_ok i f1 f4 k kek f g n p : embeds i f1 f4 -> keyed i f1 f4 k kek f g -> is_bytes (8 * n) p -> N.of_nat (8 * n) < 2 ^ 64 ->
  wrap_key i k kek p = Ret (kw_wrap f p) /\ good n (w f (icv1, semiblocks p)).
Proof.
  intros M (e & d & Ee & _ & R & _) P B. destruct (semiblocks_good n p P) as (L & F & _). assert (G : good n (icv1, semiblocks p)) by (split; [exact icv1_bytes|now split]).
  assert (G' : good n (w f (icv1, semiblocks p))) by (apply w_good; [apply R|exact G]). split; [|exact G']. unfold wrap_key. rewrite Ee. cbn [bind].
  pose proof (kw_passes_ok i f1 f4 M k e f n R (seq 0 6) (icv1, semiblocks p)) as W. cbn [fst snd] in W. change (of_be icv1) with 0xA6A6A6A6A6A6A6A6 in W.
  rewrite W; [|intros j Hj; now apply (six_ok j j); [left|]|lia|exact G]. cbv zeta. rewrite <- w_passes. cbn [bind fst snd]. unfold kw_wrap, flat. destruct G' as (A & _ & Fr).
  rewrite (be_back 8) by exact A. now rewrite back_to_bytes by exact Fr.
Qed.
Lemma unwrap_ok i f1 f4 k kek f g n ct : embeds i f1 f4 -> keyed i f1 f4 k kek f g -> is_bytes (8 * (n + 1)) ct -> N.of_nat (8 * (n + 1)) < 2 ^ 64 ->
  unwrap_key i k kek ct = Ret (kw_unwrap g ct) /\ good n (firstn 8 ct, semiblocks (skipn 8 ct)).
Proof.
  intros M (e & d & _ & Ed & _ & R) P B. assert (P' : is_bytes (8 * n) (skipn 8 ct)) by (split; [rewrite skipn_length, (proj1 P); lia|apply bytes_skipn, P]).
  assert (A : is_bytes 8 (firstn 8 ct)) by (split; [rewrite firstn_length, (proj1 P); lia|apply bytes_firstn, P]). destruct (semiblocks_good n _ P') as (L & F & _).
  assert (G : good n (firstn 8 ct, semiblocks (skipn 8 ct))) by (split; [exact A|now split]). split; [|exact G]. unfold unwrap_key. rewrite Ed. cbn [bind].
  pose proof (kw_passes_back_ok i f1 f4 M k d g n R (rev (seq 0 6)) (firstn 8 ct, semiblocks (skipn 8 ct))) as W. cbn [fst snd] in W.
  destruct W as [-> G']; [intros j Hj; now apply (six_ok j j); [right|]|lia|exact G|]. rewrite <- w_back_passes in *. cbn [bind fst snd]. unfold kw_unwrap. cbv zeta.
  destruct G' as (A' & _ & F'). f_equal. destruct (list_eq_dec N.eq_dec (fst (w_back g (firstn 8 ct, semiblocks (skipn 8 ct)))) icv1) as [->|NE]; [cbn [N.eqb]; now rewrite back_to_bytes by exact F'|].
  destruct (N.eqb_spec (of_be (fst (w_back g (firstn 8 ct, semiblocks (skipn 8 ct))))) 0xA6A6A6A6A6A6A6A6) as [Q|_]; [|reflexivity]. destruct NE.
  rewrite <- (be_back 8 _ A'), Q. reflexivity.
Qed.
Theorem C59_key_wrap : forall c i k kek n p ct,
  impl_of c = Some i -> conforming c = true -> is_bytes (key_len k) kek -> is_bytes (8 * n) p -> is_bytes (8 * (n + 1)) ct -> N.of_nat (length ct) < 2 ^ 64 ->
  wrap_key i k kek p = Ret (kw_wrap (aes_encrypt k kek) p) /\ unwrap_key i k kek ct = Ret (kw_unwrap (aes_decrypt k kek) ct).
Proof.
  intros c i k kek n p ct E C Hk P Q B. destruct (conforming_machine c i E C) as (f1 & f4 & M & K). rewrite (proj1 Q) in B. split.
  - apply (wrap_ok i f1 f4 k kek _ _ n p M (K k kek Hk) P). lia.
  - now apply (unwrap_ok i f1 f4 k kek _ _ n ct M (K k kek Hk) Q).
Qed.
Print Assumptions C59_key_wrap.
(** and on every build but the RV32 one unwrapping accepts exactly the results of wrapping (with the same key-encryption key), returns what was
    wrapped, and fails on anything else without panicking. *)
Lemma unflat n a r : is_bytes 8 a -> length r = n -> Forall (is_bytes 8) r -> firstn 8 (a ++ concat r) = a /\ semiblocks (skipn 8 (a ++ concat r)) = r /\ is_bytes (8 * (n + 1)) (a ++ concat r).
Proof.
  intros A L F. assert (B : is_bytes (8 * n) (concat r) /\ semiblocks (concat r) = r).
  { subst n. assert (Lc : length (concat r) = (8 * length r)%nat) by (induction F as [|x r X _ IH]; [reflexivity|]; cbn [concat length]; rewrite app_length, IH, (proj1 X); lia).
    split; [split; [exact Lc|]|].
    - clear Lc. induction F as [|x r X _ IH]; [constructor|]. cbn [concat]. apply bytes_ok_app; [apply X|exact IH].
    - unfold semiblocks. rewrite Lc, (Nat.mul_comm 8), Nat.div_mul by discriminate. clear Lc. induction F as [|x r X _ IH]; [reflexivity|]. cbn [length chunks concat].
      rewrite (firstn_exact 8 x), (skipn_exact 8 x) by apply X. now rewrite IH. }
  destruct B as [B S]. rewrite (firstn_exact 8 a), (skipn_exact 8 a) by apply A. split; [reflexivity|]. split; [exact S|]. replace (8 * (n + 1))%nat with (8 + 8 * n)%nat by lia. now apply is_bytes_app.
Qed.
Theorem C59_unwrap_exact : forall c i k kek n ct,
  impl_of c = Some i -> rv32_zk c = false -> is_bytes (key_len k) kek -> is_bytes (8 * (n + 1)) ct -> N.of_nat (length ct) < 2 ^ 64 ->
  (exists r, unwrap_key i k kek ct = Ret r) /\
  forall p, unwrap_key i k kek ct = Ret (Some p) <-> is_bytes (8 * n) p /\ wrap_key i k kek p = Ret ct.
Proof.
  intros c i k kek n ct E C Hk Q B. destruct (fips_machine c i E C) as (f1 & f4 & M & K). destruct (K k kek Hk) as (f & g & K1 & I). rewrite (proj1 Q) in B.
  assert (H : (forall x, is_bytes 16 x -> is_bytes 16 (f x)) /\ forall x, is_bytes 16 x -> is_bytes 16 (g x)) by (destruct K1 as (e & d & _ & _ & (A & _) & (A' & _)); now split). destruct H as [Hf Hg].
  destruct (unwrap_ok i f1 f4 k kek f g n ct M K1 Q B) as [-> G]. split; [eexists; reflexivity|]. intros p. split.
  - intros U. injection U as U. unfold kw_unwrap in U. cbv zeta in U. pose proof (w_back_good g Hg n _ G) as G'. pose proof (w_back_and_there f g Hf Hg I n _ G) as W.
    destruct (w_back g (firstn 8 ct, semiblocks (skipn 8 ct))) as [a r] eqn:S. cbn [fst snd] in *. destruct (list_eq_dec N.eq_dec a icv1) as [->|]; [|discriminate U]. injection U as <-.
    destruct G' as (_ & L & F). cbn [snd] in L, F. destruct (unflat n icv1 r icv1_bytes L F) as (_ & S' & P). rewrite (skipn_exact 8) in S' by reflexivity.
    assert (P' : is_bytes (8 * n) (concat r)).
    { destruct P as [P1 P2]. rewrite app_length in P1. change (length icv1) with 8%nat in P1. unfold bytes_ok in P2. apply Forall_app in P2 as [_ P2]. split; [lia|exact P2]. }
    split; [exact P'|]. destruct (wrap_ok i f1 f4 k kek f g n (concat r) M K1 P' ltac:(lia)) as [-> _]. f_equal. unfold kw_wrap. rewrite S', W. unfold flat. cbn [fst snd].
    assert (Pc : is_bytes (8 * n) (skipn 8 ct)) by (split; [rewrite skipn_length, (proj1 Q); lia|apply bytes_skipn, Q]). rewrite (proj2 (proj2 (semiblocks_good n _ Pc))). apply firstn_skipn.
  - intros [P W]. destruct (wrap_ok i f1 f4 k kek f g n p M K1 P ltac:(lia)) as [W' G']. rewrite W' in W. injection W as W. destruct (semiblocks_good n p P) as (L & F & Cc).
    assert (G0 : good n (icv1, semiblocks p)) by (split; [exact icv1_bytes|now split]). pose proof (w_there_and_back f g Hf Hg I n _ G0) as B'. f_equal. unfold kw_unwrap. cbv zeta.
    destruct (w f (icv1, semiblocks p)) as [a r] eqn:S. destruct G' as (A & L' & F'). cbn [fst snd] in *. destruct (unflat n a r A L' F') as (U1 & U2 & _).
    assert (Ec : ct = a ++ concat r) by (rewrite <- W; unfold kw_wrap; now rewrite S). rewrite Ec, U1, U2, B'. cbn [fst snd]. rewrite Cc. destruct (list_eq_dec N.eq_dec icv1 icv1) as [_|N]; [reflexivity|now destruct N].
Qed.
Print Assumptions C59_unwrap_exact.

(** ** Cases: the examples of RFC 4493 (CMAC), IEEE 1619 (XTS, vectors 1 and 15) and RFC 3394 (section 4.1). *)
Definition rfc4493 : list (list N * list N) := (* message, tag *)
  [([], [0xbb; 0x1d; 0x69; 0x29; 0xe9; 0x59; 0x37; 0x28; 0x7f; 0xa3; 0x7d; 0x12; 0x9b; 0x75; 0x67; 0x46]);
   (firstn 16 nist_text, [0x07; 0x0a; 0x16; 0xb4; 0x6b; 0x4d; 0x41; 0x44; 0xf7; 0x9b; 0xdd; 0x9d; 0xd0; 0x4a; 0x28; 0x7c]);
   (firstn 40 nist_text, [0xdf; 0xa6; 0x67; 0x47; 0xde; 0x9a; 0xe6; 0x30; 0x30; 0xca; 0x32; 0x61; 0x14; 0x97; 0xc8; 0x27]);
   (nist_text, [0x51; 0xf0; 0xbe; 0xbf; 0x7e; 0x3b; 0x9d; 0x92; 0xfc; 0x49; 0x74; 0x17; 0x79; 0x36; 0x3c; 0xfe])].
Example C59_cmac_case : forall c, In c conforming_samples -> exists i, impl_of c = Some i /\
  forall m t, In (m, t) rfc4493 -> cmac_tag i K128 true nist_key m = Ret t.
Proof.
  intros c H. destruct (sample_impl c) as [i E]; [apply in_app_iff; now left|]. exists i. split; [exact E|]. intros m t I.
  rewrite (C59_cmac c i K128 true nist_key m E (sample_conforming c H) nist_key_ok).
  - assert (V : map (fun v => cmac (aes_encrypt K128 nist_key) (fst v)) rfc4493 = map snd rfc4493) by (vm_compute; reflexivity).
    assert (G : forall l, map (fun v => cmac (aes_encrypt K128 nist_key) (fst v)) l = map snd l -> In (m, t) l -> cmac (aes_encrypt K128 nist_key) m = t).
    { induction l as [|v l IH]; intros W J; [destruct J|]. cbn [map] in W. injection W as W1 W2. destruct J as [->|J]; [exact W1|now apply IH]. }
    now rewrite (G rfc4493 V I).
  - unfold rfc4493 in I. cbn [In] in I. destruct I as [I|[I|[I|[I|[]]]]]; injection I as <- <-;
      match goal with |- bytes_ok ?l => assert (X : is_bytes (length l) l) by (apply is_bytesb_correct; vm_compute; reflexivity); exact (proj2 X) end.
Qed.
Definition key15_1 : list N := [0xff; 0xfe; 0xfd; 0xfc; 0xfb; 0xfa; 0xf9; 0xf8; 0xf7; 0xf6; 0xf5; 0xf4; 0xf3; 0xf2; 0xf1; 0xf0].
Definition key15_2 : list N := [0xbf; 0xbe; 0xbd; 0xbc; 0xbb; 0xba; 0xb9; 0xb8; 0xb7; 0xb6; 0xb5; 0xb4; 0xb3; 0xb2; 0xb1; 0xb0].
Definition text15 : list N := [0; 1; 2; 3; 4; 5; 6; 7; 8; 9; 10; 11; 12; 13; 14; 15; 16].
Definition xts15 : list N := [0x6c; 0x16; 0x25; 0xdb; 0x46; 0x71; 0x52; 0x2d; 0x3d; 0x75; 0x99; 0x60; 0x1d; 0xe7; 0xca; 0x09; 0xed].
Lemma key15_1_ok : is_bytes (key_len K128) key15_1. Proof. apply is_bytesb_correct. vm_compute. reflexivity. Qed.
Lemma key15_2_ok : is_bytes (key_len K128) key15_2. Proof. apply is_bytesb_correct. vm_compute. reflexivity. Qed.
Lemma text15_ok : is_bytes 17 text15. Proof. apply is_bytesb_correct. vm_compute. reflexivity. Qed.
Lemma xts15_ok : is_bytes 17 xts15. Proof. apply is_bytesb_correct. vm_compute. reflexivity. Qed.
Lemma zeros16_ok : is_bytes (key_len K128) (repeat 0 16). Proof. apply is_bytesb_correct. vm_compute. reflexivity. Qed.
Definition xts1 : list N := [0x91; 0x7c; 0xf6; 0x9e; 0xbd; 0x68; 0xb2; 0xec; 0x9b; 0x9f; 0xe9; 0xa3; 0xea; 0xdd; 0xa6; 0x92; 0xcd; 0x43; 0xd2; 0xf5; 0x95; 0x98; 0xed; 0x85; 0x8c; 0x02; 0xc2; 0x65; 0x2f; 0xbf; 0x92; 0x2e].
Example C59_xts_case : forall c, In c conforming_samples -> exists i, impl_of c = Some i /\
  xts_encrypt_unit i K128 true (repeat 0 16) (repeat 0 16) 0 (repeat 0 32) = Ret xts1 /\
  xts_encrypt_unit i K128 true key15_1 key15_2 0x123456789a text15 = Ret xts15 /\ xts_decrypt_unit i K128 false key15_1 key15_2 0x123456789a xts15 = Ret text15.
Proof.
  intros c H. destruct (sample_impl c) as [i E]; [apply in_app_iff; now left|]. exists i. split; [exact E|]. pose proof (sample_conforming c H) as C. split; [|split].
  - rewrite (proj1 (C59_xts c i K128 true (repeat 0 16) (repeat 0 16) 0 (repeat 0 32) E C zeros16_ok zeros16_ok (bytes_repeat 32 0 eq_refl) ltac:(apply Nat.leb_le; reflexivity))). vm_compute. reflexivity.
  - rewrite (proj1 (C59_xts c i K128 true key15_1 key15_2 0x123456789a text15 E C key15_1_ok key15_2_ok (proj2 text15_ok) ltac:(apply Nat.leb_le; reflexivity))). vm_compute. reflexivity.
  - rewrite (proj2 (C59_xts c i K128 false key15_1 key15_2 0x123456789a xts15 E C key15_1_ok key15_2_ok (proj2 xts15_ok) ltac:(apply Nat.leb_le; reflexivity))). vm_compute. reflexivity.
Qed.
(** seven blocks and five bytes, also on the big-endian constant-time build: four blocks at once, two singly, then stealing *)
Example C59_xts_round_trip_case : forall c k, In c fips_samples -> exists i, impl_of c = Some i /\
  exists y, xts_encrypt_unit i k true (fips_key k) (fips_key k) (2 ^ 128 - 1) (nist_text ++ firstn 53 nist_text) = Ret y /\
    xts_decrypt_unit i k false (fips_key k) (fips_key k) (2 ^ 128 - 1) y = Ret (nist_text ++ firstn 53 nist_text).
Proof.
  intros c k H. destruct (sample_rv32 c H) as [V H']. destruct (sample_impl c H') as [i E]. exists i. split; [exact E|].
  destruct (C59_xts_round_trip c i k true false (fips_key k) (fips_key k) (2 ^ 128 - 1) (nist_text ++ firstn 53 nist_text) E V (fips_key_ok k) (fips_key_ok k)) as (y & A & _ & B).
  - apply bytes_ok_app; [apply nist_text_ok|apply bytes_firstn, nist_text_ok].
  - apply Nat.leb_le. reflexivity.
  - now exists y.
Qed.
Definition rfc3394_kek : list N := [0; 1; 2; 3; 4; 5; 6; 7; 8; 9; 10; 11; 12; 13; 14; 15].
Definition rfc3394_data : list N := [0x00; 0x11; 0x22; 0x33; 0x44; 0x55; 0x66; 0x77; 0x88; 0x99; 0xAA; 0xBB; 0xCC; 0xDD; 0xEE; 0xFF].
Definition rfc3394_wrapped : list N := [0x1F; 0xA6; 0x8B; 0x0A; 0x81; 0x12; 0xB4; 0x47; 0xAE; 0xF3; 0x4B; 0xD8; 0xFB; 0x5A; 0x7B; 0x82; 0x9D; 0x3E; 0x86; 0x23; 0x71; 0xD2; 0xCF; 0xE5].
Lemma rfc3394_data_ok : is_bytes (8 * 2) rfc3394_data. Proof. apply is_bytesb_correct. vm_compute. reflexivity. Qed.
Lemma rfc3394_wrapped_ok : is_bytes (8 * (2 + 1)) rfc3394_wrapped. Proof. apply is_bytesb_correct. vm_compute. reflexivity. Qed.
Lemma rfc3394_damaged_ok : is_bytes (8 * (2 + 1)) (30 :: tl rfc3394_wrapped). Proof. apply is_bytesb_correct. vm_compute. reflexivity. Qed.
Example C59_key_wrap_case : forall c, In c conforming_samples -> exists i, impl_of c = Some i /\
  wrap_key i K128 rfc3394_kek rfc3394_data = Ret rfc3394_wrapped /\ unwrap_key i K128 rfc3394_kek rfc3394_wrapped = Ret (Some rfc3394_data) /\
  unwrap_key i K128 rfc3394_kek (30 :: tl rfc3394_wrapped) = Ret None.
Proof.
  intros c H. destruct (sample_impl c) as [i E]; [apply in_app_iff; now left|]. exists i. split; [exact E|]. pose proof (sample_conforming c H) as C.
  destruct (C59_key_wrap c i K128 rfc3394_kek 2 rfc3394_data rfc3394_wrapped E C nist_iv_ok rfc3394_data_ok rfc3394_wrapped_ok eq_refl) as [-> ->].
  destruct (C59_key_wrap c i K128 rfc3394_kek 2 rfc3394_data (30 :: tl rfc3394_wrapped) E C nist_iv_ok rfc3394_data_ok rfc3394_damaged_ok eq_refl) as [_ ->].
  split; [|split]; vm_compute; reflexivity.
Qed.
Example C59_unwrap_exact_case : forall c k, In c fips_samples -> exists i, impl_of c = Some i /\
  (forall p, unwrap_key i k (fips_key k) rfc3394_wrapped = Ret (Some p) <-> is_bytes 16 p /\ wrap_key i k (fips_key k) p = Ret rfc3394_wrapped) /\
  exists w, wrap_key i k (fips_key k) nist_text = Ret w /\ unwrap_key i k (fips_key k) w = Ret (Some nist_text).
Proof.
  intros c k H. destruct (sample_rv32 c H) as [V H']. destruct (sample_impl c H') as [i E]. exists i. split; [exact E|]. split.
  - apply (C59_unwrap_exact c i k (fips_key k) 2 rfc3394_wrapped E V (fips_key_ok k) rfc3394_wrapped_ok). reflexivity.
  - destruct (fips_machine c i E V) as (f1 & f4 & M & K). destruct (K k (fips_key k) (fips_key_ok k)) as (f & g & K1 & I).
    destruct (wrap_ok i f1 f4 k (fips_key k) f g 8 nist_text M K1 nist_text_ok eq_refl) as [W (A & L & F)]. destruct (unflat 8 _ _ A L F) as (_ & _ & B). change (is_bytes (8 * (8 + 1)) (kw_wrap f nist_text)) in B. exists (kw_wrap f nist_text). split; [exact W|].
    apply (C59_unwrap_exact c i k (fips_key k) 8 (kw_wrap f nist_text) E V (fips_key_ok k) B); [rewrite (proj1 B); reflexivity|]. split; [exact nist_text_ok|exact W].
Qed.
