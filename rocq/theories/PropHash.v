(** * Properties C15-C18: the hash functions of the standard library *)
From Coq Require Import ZArith String List Bool Lia.
Import ListNotations.
From Verif Require Import Wasm Std StdEnv WasmLogic WasmTac Spec SpecBytes Mem MemFacts Bytes ConvProofs SpecHash HashFacts Sha256Proofs Sha256Main Sha512Proofs Sha512Main Rmd160Proofs Hash160Proofs.
Open Scope string_scope.
Open Scope list_scope.
Open Scope Z_scope.

(** The situation in which compiled code calls the library: the stack pointer is [sp], above the
    library's own 1352 bytes of constants, which are still what the module was shipped with. *)
Definition ready {HS} (st : store HS) (sp : Z) : Prop :=
  gget (sglob st) "stack-pointer" = Some (VI32 sp) /\ 1352 <= sp /\ msize (smem st) <= 2 ^ 32 /\
  forall x, 0 <= x < 1352 -> rd (smem st) x = seg_at std_data x.

(** [n] bytes at [a] and [k] bytes at [b] have nothing in common *)
Definition disjoint (a n b k : Z) : Prop := a + n <= b \/ b + k <= a.

(** Calling [f args] leaves [digest] at [out] and returns that address and the digest's length.
    Nothing else changes but the [size] bytes of scratch space from the stack pointer on. *)
Definition digests {HS} (E : env HS) (f : string) (args : list val) (st : store HS) (sp size out : Z) (digest : list Z) : Prop :=
  let n := Z.of_nat (length digest) in
  exists m', calls E f args st (RVals [VI32 out; VI32 n] (with_mem st m')) /\
    bytes_at m' out (length digest) = digest /\ msize m' = msize (smem st) /\
    forall x, ~ (sp <= x < sp + size) -> ~ (out <= x < out + n) -> rd m' x = rd (smem st) x.

Lemma wpf_some {HS} (E : env HS) f args st (R : result HS -> Prop) : wpf E f args st R -> exists r, calls E f args st r /\ R r.
Proof. intros (n & r & H & HR). exists r. split; [exists n; exact H|exact HR]. Qed.
Lemma state_length s msg : length (HH s) = 8%nat -> length (sha2_state s msg) = 8%nat.
Proof. intros H. apply state_len. exact H. Qed.
Lemma flat_map_len {A} (f : A -> list Z) n l : (forall x, length (f x) = n) -> length (flat_map f l) = (n * length l)%nat.
Proof. intros H. induction l as [|x l IH]; cbn [flat_map length]; [lia|]. rewrite app_length, H, IH. lia. Qed.
Lemma sha256_len msg : length (sha256 msg) = 32%nat.
Proof. unfold sha256, sha2_hash. rewrite (flat_map_len _ 4); [|intros; apply len_be_bytes]. rewrite state_length; [reflexivity|rewrite H256_ok; reflexivity]. Qed.
Lemma sha512_len msg : length (sha512 msg) = 64%nat.
Proof. unfold sha512, sha2_hash. rewrite (flat_map_len _ 8); [|intros; apply len_be_bytes]. rewrite state_length; [reflexivity|rewrite H512_ok; reflexivity]. Qed.
Lemma pad256_len msg : Z.of_nat (length (sha2_pad SHA256 msg)) = plen (Z.of_nat (length msg)).
Proof.
  unfold sha2_pad. rewrite !app_length, repeat_length, len_be_bytes. change (bits SHA256 / 8) with 4. change (2 * wbytes SHA256)%nat with 8%nat. cbn [length].
  rewrite plen_pad by lia. set (n := Z.of_nat (length msg)). replace (- (n + 1 + 2 * 4)) with (- (n + 9)) by lia. pose proof (Z.mod_pos_bound (- (n + 9)) 64 ltac:(lia)). change (16 * 4) with 64. lia.
Qed.
Lemma pad512_len msg : Z.of_nat (length (sha2_pad SHA512 msg)) = plen512 (Z.of_nat (length msg)).
Proof.
  unfold sha2_pad. rewrite !app_length, repeat_length, len_be_bytes. change (bits SHA512 / 8) with 8. change (2 * wbytes SHA512)%nat with 16%nat. cbn [length].
  rewrite plen512_pad by lia. set (n := Z.of_nat (length msg)). replace (- (n + 1 + 2 * 8)) with (- (n + 17)) by lia. pose proof (Z.mod_pos_bound (- (n + 17)) 128 ltac:(lia)). change (16 * 8) with 128. lia.
Qed.

(** ** C15 *)
Theorem C15_sha256 : forall {HS} (E : env HS), has_std E -> forall st sp data msg out, ready st sp ->
  holds (smem st) data msg -> Z.of_nat (length msg) < 2 ^ 29 -> disjoint data (Z.of_nat (length msg)) sp 32 ->
  0 <= out -> out + 32 <= msize (smem st) -> disjoint out 32 sp 32 ->
  let size := 288 + Z.of_nat (length (sha2_pad SHA256 msg)) in sp + size <= msize (smem st) ->
  digests E "stdlib.sha256-buf" [VI32 data; VI32 (Z.of_nat (length msg)); VI32 out] st sp size out (sha256 msg).
Proof.
  intros HS E HE st sp data msg out (Hg & H0 & Hm32 & Hc) (Hd & Hdm & Hb) Hn Hdis Ho Hom Hod size Hsz. unfold size in *. rewrite pad256_len in *.
  unfold digests. rewrite sha256_len. change (Z.of_nat 32) with 32.
  assert (W : wpf E "stdlib.sha256-buf" [VI32 data; VI32 (Z.of_nat (length msg)); VI32 out] st (fun r => exists m', r = RVals [VI32 out; VI32 32] (with_mem st m') /\
     bytes_at m' out 32 = sha256 msg /\ msize m' = msize (smem st) /\ forall x, ~ (sp <= x < sp + (288 + plen (Z.of_nat (length msg)))) -> ~ (out <= x < out + 32) -> rd m' x = rd (smem st) x)).
  { eapply sha256_buf_wp with (sp := sp); [exact HE|exact Hg|exact H0|exact Hd|exact Ho|exact Hn|apply Hdm|exact Hom|exact Hdis|exact Hod| |exact Hm32|exact Hc|].
    - lia.
    - intros m' Hs Hr D.  exists m'. split; [reflexivity|]. rewrite Hb in D. split; [exact D|]. split; [exact Hs|]. intros x Hx Hy. apply Hr; lia. }
  apply wpf_some in W. destruct W as (r & Hr & m' & -> & W). exists m'. split; [exact Hr|exact W].
Qed.
Print Assumptions C15_sha256.

(** ** C16 *)
Theorem C16_sha512 : forall {HS} (E : env HS), has_std E -> forall st sp data msg out, ready st sp ->
  holds (smem st) data msg -> Z.of_nat (length msg) < 2 ^ 29 -> disjoint data (Z.of_nat (length msg)) sp 64 ->
  0 <= out -> out + 64 <= msize (smem st) -> disjoint out 64 sp 64 ->
  let size := 704 + Z.of_nat (length (sha2_pad SHA512 msg)) in sp + size <= msize (smem st) ->
  digests E "stdlib.sha512-buf" [VI32 data; VI32 (Z.of_nat (length msg)); VI32 out] st sp size out (sha512 msg).
Proof.
  intros HS E HE st sp data msg out (Hg & H0 & Hm32 & Hc) (Hd & Hdm & Hb) Hn Hdis Ho Hom Hod size Hsz. unfold size in *. rewrite pad512_len in *.
  unfold digests. rewrite sha512_len. change (Z.of_nat 64) with 64.
  assert (W : wpf E "stdlib.sha512-buf" [VI32 data; VI32 (Z.of_nat (length msg)); VI32 out] st (fun r => exists m', r = RVals [VI32 out; VI32 64] (with_mem st m') /\
     bytes_at m' out 64 = sha512 msg /\ msize m' = msize (smem st) /\ forall x, ~ (sp <= x < sp + (704 + plen512 (Z.of_nat (length msg)))) -> ~ (out <= x < out + 64) -> rd m' x = rd (smem st) x)).
  { eapply sha512_buf_wp with (sp := sp); [exact HE|exact Hg|exact H0|exact Hd|exact Ho|exact Hn|apply Hdm|exact Hom|exact Hdis|exact Hod| |exact Hm32|exact Hc|].
    - lia.
    - intros m' Hs Hr D.  exists m'. split; [reflexivity|]. rewrite Hb in D. split; [exact D|]. split; [exact Hs|]. intros x Hx Hy. apply Hr; lia. }
  apply wpf_some in W. destruct W as (r & Hr & m' & -> & W). exists m'. split; [exact Hr|exact W].
Qed.
Print Assumptions C16_sha512.

(** ** C17 *)
Lemma rmd_compress_len h X : length h = 5%nat -> (forall v j, length v = 5%nat -> length (rmd_left X v j) = 5%nat) -> length (rmd_compress h X) = 5%nat.
Proof.
  intros H _.
  assert (A : forall l v, length v = 5%nat -> length (fold_left (rmd_left X) l v) = 5%nat /\ length (fold_left (rmd_right X) l v) = 5%nat).
  { induction l as [|j l IH]; intros v Hv; [split; exact Hv|]. cbn [fold_left].
    destruct v as [|a [|b [|c [|d [|e [|? ?]]]]]]; try discriminate Hv. split; apply IH; reflexivity. }
  unfold rmd_compress. destruct (A (seq 0 80) h H) as (A1 & A2).
  destruct h as [|h0 [|h1 [|h2 [|h3 [|h4 [|? ?]]]]]]; try discriminate H.
  destruct (fold_left (rmd_left X) (seq 0 80) _) as [|a [|b [|c [|d [|e [|? ?]]]]]]; try discriminate A1.
  destruct (fold_left (rmd_right X) (seq 0 80) _) as [|a' [|b' [|c' [|d' [|e' [|? ?]]]]]]; try discriminate A2. reflexivity.
Qed.
Lemma ripemd160_len msg : length (ripemd160 msg) = 20%nat.
Proof.
  unfold ripemd160. rewrite (flat_map_len _ 4) by (intros; reflexivity).
  assert (A : forall l h, length h = 5%nat -> length (fold_left rmd_compress l h) = 5%nat).
  { induction l as [|X l IH]; intros h H; [exact H|]. cbn [fold_left]. apply IH. apply rmd_compress_len; [exact H|].
    intros v j Hv. destruct v as [|a [|b [|c [|d [|e [|? ?]]]]]]; try discriminate Hv. reflexivity. }
  rewrite A; reflexivity.
Qed.

(** the digest may even be written over the message or the scratch space *)
Theorem C17_hash160 : forall {HS} (E : env HS), has_std E -> forall st sp data msg out, ready st sp ->
  holds (smem st) data msg -> Z.of_nat (length msg) < 2 ^ 29 -> disjoint data (Z.of_nat (length msg)) (sp + 32) 32 ->
  0 <= out -> out + 20 <= msize (smem st) ->
  let size := 320 + Z.of_nat (length (sha2_pad SHA256 msg)) in sp + size <= msize (smem st) ->
  digests E "stdlib.hash160-buf" [VI32 data; VI32 (Z.of_nat (length msg)); VI32 out] st sp size out (ripemd160 (sha256 msg)).
Proof.
  intros HS E HE st sp data msg out (Hg & H0 & Hm32 & Hc) (Hd & Hdm & Hb) Hn Hdis Ho Hom size Hsz. unfold size in *. rewrite pad256_len in *.
  unfold digests. rewrite ripemd160_len. change (Z.of_nat 20) with 20.
  assert (W : wpf E "stdlib.hash160-buf" [VI32 data; VI32 (Z.of_nat (length msg)); VI32 out] st (fun r => exists m', r = RVals [VI32 out; VI32 20] (with_mem st m') /\
     bytes_at m' out 20 = ripemd160 (sha256 msg) /\ msize m' = msize (smem st) /\ forall x, ~ (sp <= x < sp + (320 + plen (Z.of_nat (length msg)))) -> ~ (out <= x < out + 20) -> rd m' x = rd (smem st) x)).
  { eapply hash160_buf_wp with (sp := sp); [exact HE|exact Hg|exact H0|exact Hd|exact Ho|exact Hn|apply Hdm|exact Hom| | |exact Hm32|exact Hc|].
    - unfold disjoint in Hdis. lia.
    - lia.
    - intros m' Hs Hr D.  exists m'. split; [reflexivity|]. rewrite Hb in D. split; [exact D|]. split; [exact Hs|]. intros x Hx Hy. apply Hr; lia. }
  apply wpf_some in W. destruct W as (r & Hr & m' & -> & W). exists m'. split; [exact Hr|exact W].
Qed.
Print Assumptions C17_hash160.

(** ** C18: an integer is hashed as its sixteen little-endian bytes in two's complement *)
Definition integer (n : Z) (args : list val) : Prop := is_u128 n /\ args = u128 n \/ is_i128 n /\ args = i128 n.
Lemma integer_words n args : integer n args -> exists lo hi, args = [VI64 lo; VI64 hi] /\ int_bytes lo hi = le_bytes 16 (n mod 2 ^ 128).
Proof.
  intros H. exists ((n mod 2 ^ 128) mod 2 ^ 64), ((n mod 2 ^ 128) / 2 ^ 64). split.
  - destruct H as [(H & ->)|(H & ->)]; [|reflexivity]. unfold u128. rewrite (Z.mod_small n (2 ^ 128)) by (unfold is_u128 in H; exact H). reflexivity.
  - change 16%nat with (8 + 8)%nat. rewrite le_bytes_app. change (256 ^ Z.of_nat 8) with (2 ^ 64). unfold int_bytes. f_equal.
    change (2 ^ 64) with (256 ^ Z.of_nat 8). apply le_bytes_mod.
Qed.

Theorem C18_sha256_int : forall {HS} (E : env HS), has_std E -> forall st sp n args out, ready st sp -> integer n args ->
  0 <= out -> out + 32 <= msize (smem st) -> disjoint out 32 sp 32 -> sp + 354 <= msize (smem st) ->
  digests E "stdlib.sha256-int" (args ++ [VI32 out]) st sp 354 out (sha256 (le_bytes 16 (n mod 2 ^ 128))).
Proof.
  intros HS E HE st sp n args out (Hg & H0 & Hm32 & Hc) Hi Ho Hom Hod Hsz. destruct (integer_words _ _ Hi) as (lo & hi & -> & <-).
  unfold digests. rewrite sha256_len. change (Z.of_nat 32) with 32. cbn [app].
  assert (W : wpf E "stdlib.sha256-int" [VI64 lo; VI64 hi; VI32 out] st (fun r => exists m', r = RVals [VI32 out; VI32 32] (with_mem st m') /\
     bytes_at m' out 32 = sha256 (int_bytes lo hi) /\ msize m' = msize (smem st) /\ forall x, ~ (sp <= x < sp + 354) -> ~ (out <= x < out + 32) -> rd m' x = rd (smem st) x)).
  { eapply sha256_int_wp with (sp := sp); [exact HE|exact Hg|exact H0|exact Ho|exact Hom|exact Hod|exact Hsz|exact Hm32|exact Hc|].
    intros m' Hs Hr D.  exists m'. split; [reflexivity|]. split; [exact D|]. split; [exact Hs|]. intros x Hx Hy. apply Hr; lia. }
  apply wpf_some in W. destruct W as (r & Hr & m' & -> & W). exists m'. split; [exact Hr|exact W].
Qed.
Print Assumptions C18_sha256_int.

Theorem C18_sha512_int : forall {HS} (E : env HS), has_std E -> forall st sp n args out, ready st sp -> integer n args ->
  0 <= out -> out + 64 <= msize (smem st) -> disjoint out 64 sp 64 -> sp + 834 <= msize (smem st) ->
  digests E "stdlib.sha512-int" (args ++ [VI32 out]) st sp 834 out (sha512 (le_bytes 16 (n mod 2 ^ 128))).
Proof.
  intros HS E HE st sp n args out (Hg & H0 & Hm32 & Hc) Hi Ho Hom Hod Hsz. destruct (integer_words _ _ Hi) as (lo & hi & -> & <-).
  unfold digests. rewrite sha512_len. change (Z.of_nat 64) with 64. cbn [app].
  assert (W : wpf E "stdlib.sha512-int" [VI64 lo; VI64 hi; VI32 out] st (fun r => exists m', r = RVals [VI32 out; VI32 64] (with_mem st m') /\
     bytes_at m' out 64 = sha512 (int_bytes lo hi) /\ msize m' = msize (smem st) /\ forall x, ~ (sp <= x < sp + 834) -> ~ (out <= x < out + 64) -> rd m' x = rd (smem st) x)).
  { eapply sha512_int_wp with (sp := sp); [exact HE|exact Hg|exact H0|exact Ho|exact Hom|exact Hod|exact Hsz|exact Hm32|exact Hc|].
    intros m' Hs Hr D.  exists m'. split; [reflexivity|]. split; [exact D|]. split; [exact Hs|]. intros x Hx Hy. apply Hr; lia. }
  apply wpf_some in W. destruct W as (r & Hr & m' & -> & W). exists m'. split; [exact Hr|exact W].
Qed.
Print Assumptions C18_sha512_int.

Lemma hash160_eq msg : hash160 msg = ripemd160 (sha256 msg).
Proof. reflexivity. Qed.
Lemma hash160_len msg : length (hash160 msg) = 20%nat.
Proof. apply ripemd160_len. Qed.
Theorem C18_hash160_int : forall {HS} (E : env HS), has_std E -> forall st sp n args out, ready st sp -> integer n args ->
  0 <= out -> out + 20 <= msize (smem st) -> sp + 386 <= msize (smem st) ->
  digests E "stdlib.hash160-int" (args ++ [VI32 out]) st sp 386 out (ripemd160 (sha256 (le_bytes 16 (n mod 2 ^ 128)))).
Proof.
  intros HS E HE st sp n args out (Hg & H0 & Hm32 & Hc) Hi Ho Hom Hsz. destruct (integer_words _ _ Hi) as (lo & hi & -> & <-).
  rewrite <- hash160_eq. unfold digests. rewrite hash160_len. change (Z.of_nat 20) with 20. cbn [app].
  assert (W : wpf E "stdlib.hash160-int" [VI64 lo; VI64 hi; VI32 out] st (fun r => exists m', r = RVals [VI32 out; VI32 20] (with_mem st m') /\
     bytes_at m' out 20 = hash160 (int_bytes lo hi) /\ msize m' = msize (smem st) /\ forall x, ~ (sp <= x < sp + 386) -> ~ (out <= x < out + 20) -> rd m' x = rd (smem st) x)).
  { eapply hash160_int_wp with (sp := sp); [exact HE|exact Hg|exact H0|exact Ho|exact Hom|exact Hsz|exact Hm32|exact Hc|].
    intros m' Hs Hr D.  exists m'. split; [reflexivity|]. split; [exact D|]. split; [exact Hs|]. intros x Hx Hy. apply Hr; lia. }
  apply wpf_some in W. destruct W as (r & Hr & m' & -> & W). exists m'. split; [exact Hr|exact W].
Qed.
Print Assumptions C18_hash160_int.

(** ** A situation the theorems apply to: "abc" at 2000, the digest wanted at 3000, stack pointer 4000. *)
Definition abc : list Z := [97; 98; 99].
Definition hash_store : store unit :=
  mkstore (write_bytes std_mem 2000 abc) (gset std_globals "stack-pointer" (VI32 4000)) tt.
Lemma hash_ready : ready hash_store 4000.
Proof.
  split; [reflexivity|]. split; [lia|]. split; [vm_compute; discriminate|].
  intros x Hx. change (smem hash_store) with (write_bytes std_mem 2000 abc). destruct (only_write abc std_mem 2000) as (_ & H).
  rewrite H by lia.
  assert (A : forallb (fun i => rd std_mem (Z.of_nat i) =? seg_at std_data (Z.of_nat i)) (seq 0 1352) = true) by (vm_compute; reflexivity).
  rewrite forallb_forall in A. specialize (A (Z.to_nat x)). rewrite Z2Nat.id in A by lia. apply Z.eqb_eq. apply A. apply in_seq. lia.
Qed.
Lemma hash_input : holds (smem hash_store) 2000 abc.
Proof. split; [lia|]. split; [vm_compute; split; discriminate|]. reflexivity. Qed.

Example C15_ex : digests (@std_env unit) "stdlib.sha256-buf" [VI32 2000; VI32 3; VI32 3000] hash_store 4000 352 3000
  (be_bytes 32 0xba7816bf8f01cfea414140de5dae2223b00361a396177a9cb410ff61f20015ad).
Proof.
  rewrite <- sha256_abc. apply (C15_sha256 std_env std_env_ok hash_store 4000 2000 abc 3000 hash_ready hash_input).
  - vm_compute. reflexivity.
  - left. vm_compute. discriminate.
  - lia.
  - vm_compute. discriminate.
  - left. lia.
  - vm_compute. discriminate.
Qed.
Example C16_ex : digests (@std_env unit) "stdlib.sha512-buf" [VI32 2000; VI32 3; VI32 3000] hash_store 4000 832 3000 (sha512 abc).
Proof.
  apply (C16_sha512 std_env std_env_ok hash_store 4000 2000 abc 3000 hash_ready hash_input).
  - vm_compute. reflexivity.
  - left. vm_compute. discriminate.
  - lia.
  - vm_compute. discriminate.
  - left. lia.
  - vm_compute. discriminate.
Qed.
Example C17_ex : digests (@std_env unit) "stdlib.hash160-buf" [VI32 2000; VI32 3; VI32 2000] hash_store 4000 384 2000 (ripemd160 (sha256 abc)).
Proof.
  apply (C17_hash160 std_env std_env_ok hash_store 4000 2000 abc 2000 hash_ready hash_input).
  - vm_compute. reflexivity.
  - left. vm_compute. discriminate.
  - lia.
  - vm_compute. discriminate.
  - vm_compute. discriminate.
Qed.
(** (sha256 1), (sha256 -1) *)
Example C18_ex : digests (@std_env unit) "stdlib.sha256-int" [VI64 1; VI64 0; VI32 3000] hash_store 4000 354 3000
  (be_bytes 32 0x4cbbd8ca5215b8d161aec181a74b694f4e24b001d5b081dc0030ed797a8973e0).
Proof.
  replace (be_bytes 32 _) with (sha256 (le_bytes 16 (1 mod 2 ^ 128))) by (vm_compute; reflexivity).
  apply (C18_sha256_int std_env std_env_ok hash_store 4000 1 [VI64 1; VI64 0] 3000 hash_ready).
  - left. split; [split; [lia|reflexivity]|reflexivity].
  - lia.
  - vm_compute. discriminate.
  - left. lia.
  - vm_compute. discriminate.
Qed.
Example C18_ex_negative : integer (-1) [VI64 18446744073709551615; VI64 18446744073709551615] /\ le_bytes 16 (-1 mod 2 ^ 128) = repeat 255 16.
Proof. split; [right; split; [split; [vm_compute; discriminate|reflexivity]|reflexivity]|reflexivity]. Qed.
