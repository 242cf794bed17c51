(** .github/workflows/rust.yml: the jobs of the project's continuous integration, and the build configuration each of them
    compiles.  The toolchain channel, docker images and emulators are not modelled beyond what is said here. *)
From Coq Require Import String.
From Verif Require Import Word Model_Cfg.
Open Scope string_scope.

(* The toolchains .github/workflows/rust.yml names (lines 75, 87, 102, 112, 119, 134, 144, 151, 162). *)
Inductive channel := Stable | Beta | Nightly.
(** One entry of a matrix, or one job: its name, the [--target], the [-C target-feature] list (each with its "+"), the
    cargo features ([--features=...]) and the toolchains it is run with. *)
(* The inputs of .github/workflows/runtest.yml:4-21 and the keys of the matrix at rust.yml:26-66. *)
Record job : Type := Job { j_name : string; j_target : string; j_target_features : list string; j_features : list string; j_channels : list channel }.

(** rust.yml:20-82, job "clippy" (toolchain nightly, line 75) *)
Definition clippy_jobs : list job :=
  [Job "AES-NI" "x86_64-unknown-linux-gnu" ["sse4.1"; "aes"] [] [Nightly];
   Job "AES-NI with VAES" "x86_64-unknown-linux-gnu" ["vaes"] ["nightly"] [Nightly];
   Job "AES-NI with VAES and AVX-512" "x86_64-unknown-linux-gnu" ["vaes"; "avx512f"] ["nightly"] [Nightly];
   Job "Neon" "aarch64-unknown-linux-gnu" ["aes"] [] [Nightly];
   Job "ARMv8" "armv7-unknown-linux-gnueabihf" ["v8"; "aes"] ["nightly"] [Nightly];
   Job "RV64" "riscv64gc-unknown-linux-gnu" ["zkne"; "zknd"] [] [Nightly];
   Job "RV32" "riscv32i-unknown-none-elf" ["zkne"; "zknd"] [] [Nightly];
   Job "Software" "x86_64-unknown-linux-gnu" [] [] [Nightly];
   Job "Constant-Time" "x86_64-unknown-linux-gnu" [] ["constant-time"] [Nightly]].

(** rust.yml:84-169, the jobs "test-..." with the names they are shown under *)
Definition test_jobs : list job :=
  [Job "AESNI" "x86_64-unknown-linux-gnu" ["sse4.1"; "aes"] [] [Stable; Beta; Nightly];
   Job "AESNI with VAES" "x86_64-unknown-linux-gnu" ["vaes"] ["nightly"] [Nightly];
   Job "AESNI with VAES and AVX512F" "x86_64-unknown-linux-gnu" ["vaes"; "avx512f"] ["nightly"] [Nightly];
   Job "Neon on AArch64" "aarch64-unknown-linux-gnu" ["aes"] [] [Stable; Beta; Nightly];
   Job "Neon on ARMv8" "armv7-unknown-linux-gnueabihf" ["v8"; "aes"] ["nightly"] [Nightly];
   Job "RiscV-64" "riscv64gc-unknown-linux-gnu" ["zkne"; "zknd"] ["nightly"] [Nightly];
   Job "Software Implementation" "x86_64-unknown-linux-gnu" [] [] [Stable; Beta; Nightly];
   Job "Constant-time Implementation" "x86_64-unknown-linux-gnu" [] ["constant-time"] [Stable; Beta; Nightly]].

(** The five targets named in rust.yml, all little-endian; none has one of the features lib.rs asks about in its baseline. *)
(* Facts about rustc's targets rust.yml:28-63, 92-167 names. *)
Definition target_arch (t : string) : arch :=
  if t =? "x86_64-unknown-linux-gnu" then X86_64
  else if t =? "aarch64-unknown-linux-gnu" then Aarch64
  else if t =? "armv7-unknown-linux-gnueabihf" then Arm
  else if t =? "riscv64gc-unknown-linux-gnu" then Riscv64
  else if t =? "riscv32i-unknown-none-elf" then Riscv32
  else OtherArch.
(* The "+f" list of rust.yml:30-65, 94-145. *)
Definition has (l : list string) (f : string) : bool := existsb (String.eqb f) l.
(** [cfg!] as rustc sets it for a job: on x86, rustc's feature implications make "vaes" include "aes" and "sse4.1" (through
    "avx2") and "avx512f" include "sse4.1".  [cargo clippy] and [cargo test] use the dev profile: debug assertions on. *)
(* rust.yml:70, 82 and runtest.yml:37-41, ci/run-docker.sh:14-28. *)
Definition job_cfg (j : job) : cfg :=
  let f := has (j_target_features j) in
  let x86 := match target_arch (j_target j) with X86 | X86_64 => true | _ => false end in
  Cfg (target_arch (j_target j)) false (has (j_features j) "nightly") (has (j_features j) "constant-time")
      (f "sse4.1" || x86 && (f "vaes" || f "avx512f")) (f "aes" || x86 && f "vaes") (f "vaes") (f "avx512f")
      (f "v8") (f "zkne") (f "zknd") true.
