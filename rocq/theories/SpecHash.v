(** * Specification of the hash functions, independent of the model:
    SHA-256 and SHA-512 (FIPS 180-4) and RIPEMD-160 (Dobbertin, Bosselaers, Preneel 1996).
    Words are integers in [0, 2^w), bytes integers in [0, 256). *)
From Coq Require Import ZArith List Bool.
Import ListNotations.
From Verif Require Import Bytes SpecBytes.
Open Scope Z_scope.

(** ** Words *)
Definition add_w (w a b : Z) : Z := (a + b) mod 2 ^ w.
Definition not_w (w x : Z) : Z := Z.lxor x (2 ^ w - 1).
Definition rotr (w n x : Z) : Z := Z.lor (Z.shiftr x n) (Z.shiftl x (w - n) mod 2 ^ w).
Definition rotl (w n x : Z) : Z := Z.lor (Z.shiftl x n mod 2 ^ w) (Z.shiftr x (w - n)).
Definition shr (n x : Z) : Z := Z.shiftr x n.

(** ** Primes and roots, from which the constants are made *)
Definition is_prime (n : nat) : bool :=
  Nat.leb 2 n && forallb (fun d => negb (Nat.eqb (Nat.modulo n d) 0)) (seq 2 (n - 2)).
Definition primes_below (n : nat) : list Z := map Z.of_nat (filter is_prime (seq 0 n)).
(** integer cube root, bit by bit *)
Fixpoint cbrt_from (n : nat) (r x : Z) : Z :=
  match n with
  | O => r
  | S n => let r' := r + 2 ^ Z.of_nat n in cbrt_from n (if r' ^ 3 <=? x then r' else r) x
  end.
Definition cbrt (x : Z) : Z := cbrt_from 80 0 x.
(** the first [w] bits of the fractional part of the square / cube root *)
Definition sqrt_frac (w p : Z) : Z := Z.sqrt (p * 2 ^ (2 * w)) mod 2 ^ w.
Definition cbrt_frac (w p : Z) : Z := cbrt (p * 2 ^ (3 * w)) mod 2 ^ w.

(** ** SHA-2 *)
Record sha2 := {
  bits : Z;                          (** word size *)
  Sigma0 : Z -> Z; Sigma1 : Z -> Z;  (** in a round *)
  sigma0 : Z -> Z; sigma1 : Z -> Z;  (** in the message schedule *)
  KK : list Z;                       (** round constants *)
  HH : list Z }.                     (** initial hash value *)

Definition rot3 (w a b c x : Z) : Z := Z.lxor (Z.lxor (rotr w a x) (rotr w b x)) (rotr w c x).
Definition rot2s (w a b c x : Z) : Z := Z.lxor (Z.lxor (rotr w a x) (rotr w b x)) (shr c x).

(** FIPS 180-4, 4.1.2, 4.2.2, 5.3.3 *)
Definition SHA256 : sha2 := {|
  bits := 32;
  Sigma0 := rot3 32 2 13 22; Sigma1 := rot3 32 6 11 25;
  sigma0 := rot2s 32 7 18 3; sigma1 := rot2s 32 17 19 10;
  KK := map (cbrt_frac 32) (primes_below 312);
  HH := map (sqrt_frac 32) (primes_below 20) |}.
(** 4.1.3, 4.2.3, 5.3.5 *)
Definition SHA512 : sha2 := {|
  bits := 64;
  Sigma0 := rot3 64 28 34 39; Sigma1 := rot3 64 14 18 41;
  sigma0 := rot2s 64 1 8 7; sigma1 := rot2s 64 19 61 6;
  KK := map (cbrt_frac 64) (primes_below 410);
  HH := map (sqrt_frac 64) (primes_below 20) |}.

Definition Ch (w x y z : Z) : Z := Z.lxor (Z.land x y) (Z.land (not_w w x) z).
Definition Maj (x y z : Z) : Z := Z.lxor (Z.lxor (Z.land x y) (Z.land x z)) (Z.land y z).

(** bytes per word / per block / of the length field *)
Definition wbytes (s : sha2) : nat := Z.to_nat (bits s / 8).

(** 5.1: a one bit, zeros, and the length in bits, up to a multiple of the block size *)
Definition sha2_pad (s : sha2) (msg : list Z) : list Z :=
  let len := Z.of_nat (length msg) in
  let b := bits s / 8 in
  msg ++ [128] ++ repeat 0 (Z.to_nat ((- (len + 1 + 2 * b)) mod (16 * b))) ++ be_bytes (2 * wbytes s) (8 * len).

(** consecutive pieces of [n] elements *)
Definition pieces {A} (n : nat) (l : list A) : list (list A) :=
  map (fun i => firstn n (skipn (n * i) l)) (seq 0 (length l / n)).

(** 6.2.2, 6.4.2 *)
Definition sched_next (s : sha2) (ws : list Z) : Z :=
  let t := length ws in
  let W i := nth (t - i) ws 0 in
  (sigma1 s (W 2%nat) + W 7%nat + sigma0 s (W 15%nat) + W 16%nat) mod 2 ^ bits s.
Fixpoint schedule (s : sha2) (n : nat) (ws : list Z) : list Z :=
  match n with O => ws | S n => schedule s n (ws ++ [sched_next s ws]) end.

Definition sha2_round (s : sha2) (v : list Z) (kw : Z * Z) : list Z :=
  match v with
  | [a; b; c; d; e; f; g; h] =>
      let t1 := (h + Sigma1 s e + Ch (bits s) e f g + fst kw + snd kw) mod 2 ^ bits s in
      let t2 := (Sigma0 s a + Maj a b c) mod 2 ^ bits s in
      [add_w (bits s) t1 t2; a; b; c; add_w (bits s) d t1; e; f; g]
  | _ => v
  end.
Definition sha2_compress (s : sha2) (h : list Z) (block : list Z) : list Z :=
  let ws := schedule s (length (KK s) - 16) (map be_value (pieces (wbytes s) block)) in
  map (fun p => add_w (bits s) (fst p) (snd p)) (combine h (fold_left (sha2_round s) (combine (KK s) ws) h)).
Definition sha2_state (s : sha2) (msg : list Z) : list Z :=
  fold_left (sha2_compress s) (pieces (16 * wbytes s) (sha2_pad s msg)) (HH s).
Definition sha2_hash (s : sha2) (msg : list Z) : list Z := flat_map (be_bytes (wbytes s)) (sha2_state s msg).

Definition sha256 : list Z -> list Z := sha2_hash SHA256.
Definition sha512 : list Z -> list Z := sha2_hash SHA512.

(** ** RIPEMD-160 *)
Definition rmd_rho : list nat := [7; 4; 13; 1; 10; 6; 15; 3; 12; 0; 9; 5; 2; 14; 11; 8]%nat.
Definition rmd_pi (i : nat) : nat := Nat.modulo (9 * i + 5) 16.
Fixpoint iter_rho (n i : nat) : nat := match n with O => i | S n => nth (iter_rho n i) rmd_rho O end.
(** word used in step [j] of the left / right line *)
Definition rmd_r (j : nat) : nat := iter_rho (j / 16) (j mod 16).
Definition rmd_r' (j : nat) : nat := iter_rho (j / 16) (rmd_pi (j mod 16)).
(** rotation for each round and word *)
Definition rmd_shifts : list (list Z) := [
  [11; 14; 15; 12; 5; 8; 7; 9; 11; 13; 14; 15; 6; 7; 9; 8];
  [12; 13; 11; 15; 6; 9; 9; 7; 12; 15; 11; 13; 7; 8; 7; 7];
  [13; 15; 14; 11; 7; 7; 6; 8; 13; 14; 13; 12; 5; 5; 6; 9];
  [14; 11; 12; 14; 8; 6; 5; 5; 15; 12; 15; 14; 9; 9; 8; 6];
  [15; 12; 13; 13; 9; 5; 8; 6; 14; 11; 12; 11; 8; 6; 5; 5]].
Definition rmd_s (j r : nat) : Z := nth r (nth (j / 16) rmd_shifts []) 0.
(** boolean function and constants of each round *)
Definition rmd_f (round : nat) (x y z : Z) : Z :=
  match round with
  | 0%nat => Z.lxor (Z.lxor x y) z
  | 1%nat => Z.lor (Z.land x y) (Z.land (not_w 32 x) z)
  | 2%nat => Z.lxor (Z.lor x (not_w 32 y)) z
  | 3%nat => Z.lor (Z.land x z) (Z.land y (not_w 32 z))
  | _ => Z.lxor x (Z.lor y (not_w 32 z))
  end.
Definition rmd_K (round : nat) : Z := nth round [0; Z.sqrt (2 * 2 ^ 60); Z.sqrt (3 * 2 ^ 60); Z.sqrt (5 * 2 ^ 60); Z.sqrt (7 * 2 ^ 60)] 0.
Definition rmd_K' (round : nat) : Z := nth round [cbrt (2 * 2 ^ 90); cbrt (3 * 2 ^ 90); cbrt (5 * 2 ^ 90); cbrt (7 * 2 ^ 90); 0] 0.
Definition rmd_H : list Z := [0x67452301; 0xefcdab89; 0x98badcfe; 0x10325476; 0xc3d2e1f0].

(** one step: word [x], constant [k], function [f], rotation [n] *)
Definition rmd_step (f : Z -> Z -> Z -> Z) (k x n : Z) (v : list Z) : list Z :=
  match v with
  | [a; b; c; d; e] => [e; add_w 32 (rotl 32 n ((a + f b c d + x + k) mod 2 ^ 32)) e; b; rotl 32 10 c; d]
  | _ => v
  end.
Definition rmd_left (X : list Z) (v : list Z) (j : nat) : list Z :=
  let r := rmd_r j in rmd_step (rmd_f (j / 16)) (rmd_K (j / 16)) (nth r X 0) (rmd_s j r) v.
Definition rmd_right (X : list Z) (v : list Z) (j : nat) : list Z :=
  let r := rmd_r' j in rmd_step (rmd_f (4 - j / 16)) (rmd_K' (j / 16)) (nth r X 0) (rmd_s j r) v.
Definition rmd_compress (h X : list Z) : list Z :=
  match h, fold_left (rmd_left X) (seq 0 80) h, fold_left (rmd_right X) (seq 0 80) h with
  | [h0; h1; h2; h3; h4], [a; b; c; d; e], [a'; b'; c'; d'; e'] =>
      [(h1 + c + d') mod 2 ^ 32; (h2 + d + e') mod 2 ^ 32; (h3 + e + a') mod 2 ^ 32; (h4 + a + b') mod 2 ^ 32; (h0 + b + c') mod 2 ^ 32]
  | _, _, _ => []
  end.
Definition rmd_pad (msg : list Z) : list Z :=
  let len := Z.of_nat (length msg) in
  msg ++ [128] ++ repeat 0 (Z.to_nat ((- (len + 9)) mod 64)) ++ le_bytes 8 (8 * len).
Definition ripemd160 (msg : list Z) : list Z :=
  flat_map (le_bytes 4) (fold_left rmd_compress (map (fun b => map le_value (pieces 4 b)) (pieces 64 (rmd_pad msg))) rmd_H).

(** hash160 *)
Definition hash160 (msg : list Z) : list Z := ripemd160 (sha256 msg).

(** ** Published test vectors *)
Example sha256_abc : sha256 [97; 98; 99] = be_bytes 32 0xba7816bf8f01cfea414140de5dae2223b00361a396177a9cb410ff61f20015ad.
Proof. vm_compute. reflexivity. Qed.
Example sha256_two_blocks : sha256 [97; 98; 99; 100; 98; 99; 100; 101; 99; 100; 101; 102; 100; 101; 102; 103; 101; 102; 103; 104; 102; 103; 104; 105; 103; 104; 105; 106; 104; 105; 106; 107; 105; 106; 107; 108; 106; 107; 108; 109; 107; 108; 109; 110; 108; 109; 110; 111; 109; 110; 111; 112; 110; 111; 112; 113] = be_bytes 32 0x248d6a61d20638b8e5c026930c3e6039a33ce45964ff2167f6ecedd419db06c1.
Proof. vm_compute. reflexivity. Qed.
Example sha512_abc : sha512 [97; 98; 99] = be_bytes 64 0xddaf35a193617abacc417349ae20413112e6fa4e89a97ea20a9eeee64b55d39a2192992a274fc1a836ba3c23a3feebbd454d4423643ce80e2a9ac94fa54ca49f.
Proof. vm_compute. reflexivity. Qed.
Example ripemd160_abc : ripemd160 [97; 98; 99] = be_bytes 20 0x8eb208f7e05d987a9b044a8e98c6b087f15a0bfc.
Proof. vm_compute. reflexivity. Qed.
Example ripemd160_empty : ripemd160 [] = be_bytes 20 0x9c1185a5c5e9fc54612808977ee8f548b2258d31.
Proof. vm_compute. reflexivity. Qed.
