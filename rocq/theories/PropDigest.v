(** * C76: [keccak256] and [sha512/256] digest the bytes Clarity says *)
From Coq Require Import ZArith String List Bool Lia.
Import ListNotations.
From Verif Require Import Wasm Std StdEnv WasmLogic Spec Mem MemFacts Bytes SpecBytes Clar Codec Emit Rep RepFacts WriteProofs ArgProofs
  Ast SpecLang Lang Typing LangFacts LangBase LangMem LangSeq LangCall LangPrim LangMain LangPlain PropLang SpecChain ConstProofs PropCodec SpecCrypto Crypto PropCrypto.
Open Scope string_scope.
Open Scope list_scope.
Open Scope Z_scope.

(** ** Meaning *)
(** what is hashed: a buffer as it is; of an integer 16 bytes, the least significant first, from
    which the integer can be read back *)
Theorem C76_what_is_hashed :
  (forall b, hashed (CBuff b) = Some b) /\
  (forall n, - 2 ^ 127 <= n < 2 ^ 127 -> exists l, hashed (CInt n) = Some l /\ length l = 16%nat /\ Forall is_byte l /\
     n = (fold_right (fun b z => b + 256 * z) 0 l + 2 ^ 127) mod 2 ^ 128 - 2 ^ 127) /\
  (forall n, 0 <= n < 2 ^ 128 -> exists l, hashed (CUInt n) = Some l /\ length l = 16%nat /\ Forall is_byte l /\
     n = fold_right (fun b z => b + 256 * z) 0 l) /\
  (forall n, 0 <= n < 2 ^ 127 -> hashed (CInt n) = hashed (CUInt n)).
Proof.
  assert (F : forall k z, 0 <= z < 256 ^ Z.of_nat k -> fold_right (fun b z => b + 256 * z) 0 (le_bytes k z) = z).
  { induction k as [|k IH]; intros z Hz.
    - cbn in *. lia.
    - rewrite Nat2Z.inj_succ, Z.pow_succ_r in Hz by lia. cbn [le_bytes fold_right]. rewrite IH; [pose proof (Z.div_mod z 256); lia|].
      split; [apply Z.div_pos; lia|apply Z.div_lt_upper_bound; lia]. }
  assert (M : forall n, 0 <= n mod 2 ^ 128 < 2 ^ 128) by (intros n; apply Z.mod_pos_bound; reflexivity).
  split; [reflexivity|]. split; [|split].
  - intros n Hn. exists (le_bytes 16 (n mod 2 ^ 128)). split; [reflexivity|]. split; [apply len_le_bytes|]. split; [apply le_bytes_byte|].
    rewrite F by exact (M n). rewrite Z.add_mod_idemp_l by discriminate. rewrite Z.mod_small; lia.
  - intros n Hn. exists (le_bytes 16 (n mod 2 ^ 128)). split; [reflexivity|]. split; [apply len_le_bytes|]. split; [apply le_bytes_byte|].
    rewrite F by exact (M n). rewrite Z.mod_small; lia.
  - reflexivity.
Qed.
Print Assumptions C76_what_is_hashed.

(** ** Concrete programs, with these two words for every hash function *)
(** [(keccak256 x)], [(sha512/256 x)] for an operand of each type; [(sha512/256 (keccak256 x))] *)
Definition hash_prog (w : khash) (t : ty) : crypto_fun := mkcryptofun [("x", t)] (KHash w (KExpr (EVar t "x"))).
Definition twice_prog (n : Z) : crypto_fun := mkcryptofun [("x", TBuff n)] (KHash Sha512_256 (KHash Keccak256 (KExpr (EVar (TBuff n) "x")))).
Lemma host76 cr a : host_crypto cr (crypto_env (only_crypto cr) [] "f" a).
Proof.
  intros f h Hf. split; [|exact Hf]. unfold crypto_host in Hf. cbn [assoc] in Hf.
  repeat match type of Hf with context [String.eqb ?x f] => destruct (String.eqb_spec x f) as [<-|]; [reflexivity|] end. discriminate Hf.
Qed.
Definition hashable (t : ty) : Prop := t = TInt \/ t = TUInt \/ exists n, t = TBuff n /\ 0 <= n <= max_value_size.
Lemma module76 cr w t : crypto_ok cr -> hashable t -> crypto_module cr (only_crypto cr) [] "f" (hash_prog w t).
Proof.
  intros Hcr Ht. split; try reflexivity; try exact Hcr; [|intros d []|apply host76].
  unfold hash_prog, kf_ret. cbn [kf_body kf_params wt_kexp kexp_ty ty_of].
  destruct Ht as [-> |[-> |(n & -> & Hn)]]; try reflexivity.
  change (widens (TBuff n) (TBuff n) = true). apply widens_refl.
Qed.
(** every operand and every hash function *)
Theorem C76_digest_program : forall cr w t v ws l (st : store unit) sp, crypto_ok cr -> hashable t ->
  crypto_ready (crypto_room [] (hash_prog w t)) [] (hash_prog w t) st sp -> has_type t v -> rep (smem st) (fun a => a < sp) t v ws -> hashed v = Some l ->
  behaves (crypto_env (only_crypto cr) [] "f" (hash_prog w t)) "f" ws st sp (TBuff 32) (Done (CBuff (cr_hash cr w l)) tt).
Proof.
  intros cr w t v ws l st sp Hcr Ht HR Hv Hr Hl.
  apply (C75_compiled_crypto cr (only_crypto cr) [] "f" (hash_prog w t) [v]); [apply module76; auto|apply host_unit_ok|exact HR|apply Forall2_cons; [exact Hv|apply Forall2_nil]| |].
  - rewrite <- (app_nil_r ws). apply (rl_cons _ _ t _ v _ ws []); [exact Hr|constructor].
  - unfold run_crypto, as_fun. destruct st as [mm gg []]. cbn. unfold bind, do_hash. cbn. rewrite Hl. reflexivity.
Qed.
Print Assumptions C76_digest_program.
(** the digest of a digest, for every buffer *)
Theorem C76_digest_of_digest : forall cr n b bo (st : store unit) sp, crypto_ok cr -> 0 <= n <= max_value_size ->
  crypto_ready (crypto_room [] (twice_prog n)) [] (twice_prog n) st sp ->
  has_type (TBuff n) (CBuff b) -> rep (smem st) (fun a => a < sp) (TBuff n) (CBuff b) [VI32 bo; VI32 (Z.of_nat (length b))] ->
  behaves (crypto_env (only_crypto cr) [] "f" (twice_prog n)) "f" [VI32 bo; VI32 (Z.of_nat (length b))] st sp (TBuff 32)
    (Done (CBuff (cr_hash cr Sha512_256 (cr_hash cr Keccak256 b))) tt).
Proof.
  intros cr n b bo st sp Hcr Hn HR Hv Hr.
  apply (C75_compiled_crypto cr (only_crypto cr) [] "f" (twice_prog n) [CBuff b]); [|apply host_unit_ok|exact HR|apply Forall2_cons; [exact Hv|apply Forall2_nil]| |].
  - split; try reflexivity; try exact Hcr; [|intros d []|apply host76]. change (widens (TBuff n) (TBuff n) = true). apply widens_refl.
  - apply (rl_cons _ _ (TBuff n) _ (CBuff b) _ [VI32 bo; VI32 (Z.of_nat (length b))] []); [exact Hr|constructor].
  - unfold run_crypto, as_fun. destruct st as [mm gg []]. reflexivity.
Qed.
Print Assumptions C76_digest_of_digest.

(** ** Anywhere: whatever program computes the operand *)
Theorem C76_compiled_digest : forall {HS} {CH : chain HS} cr host ds f a w b vs ws (st : store HS) sp v h l,
  kf_body a = KHash w b ->
  crypto_module cr host ds f a -> host_ok (crypto_env host ds f a) -> crypto_ready (crypto_room ds a) ds a st sp ->
  Forall2 has_type (map snd (kf_params a)) vs -> rep_list (smem st) (fun a => a < sp) (map snd (kf_params a)) vs ws ->
  eval_kexp cr true (run_defs true ds) b (combine (map fst (kf_params a)) vs) (shost st) = Some (Done v h) -> hashed v = Some l ->
  behaves (crypto_env host ds f a) f ws st sp (TBuff 32) (Done (CBuff (cr_hash cr w l)) h).
Proof.
  intros HS CH cr host ds f a w b vs ws st sp v h l Ha HM Hhost HR Hty Hrep He Hl.
  assert (Ht : kf_ret a = TBuff 32) by (unfold kf_ret; rewrite Ha; reflexivity). rewrite <- Ht.
  apply (C75_compiled_crypto cr host ds f a vs); try assumption.
  unfold run_crypto, as_fun. rewrite Ha. cbn [eval_kexp]. unfold bind. rewrite He. unfold do_hash. rewrite Hl. reflexivity.
Qed.
Print Assumptions C76_compiled_digest.

(** ** An instance *)
Definition m76 : mem := write_bytes (blank 65536) 100 [1; 2; 3].
Definition st76 : store unit := mkstore m76 [("stack-pointer", VI32 200); ("runtime-error-code", VI32 0)] tt.
Example C76_ex_hyps : crypto_ok toy /\ hashable TInt /\ hashable (TBuff 3) /\ crypto_ready (crypto_room [] (hash_prog Keccak256 TInt)) [] (hash_prog Keccak256 TInt) st76 200 /\ crypto_ready (crypto_room [] (twice_prog 3)) [] (twice_prog 3) st76 200 /\ rep m76 (fun a => a < 200) TInt (CInt (-2)) [VI64 (2 ^ 64 - 2); VI64 (2 ^ 64 - 1)] /\ has_type TInt (CInt (-2)) /\ rep m76 (fun a => a < 200) (TBuff 3) (CBuff [1; 2; 3]) [VI32 100; VI32 3] /\ hashed (CInt (-2)) = Some (254 :: repeat 255 15) /\ hashed (CUInt 258) = Some (2 :: 1 :: repeat 0 14).
Proof.
  split; [apply toy_ok|]. split; [left; reflexivity|]. split; [right; right; exists 3; split; [reflexivity|unfold max_value_size; lia]|]. assert (C : chain_cap (HS := unit) < 2 ^ 31) by reflexivity.
  split; [split; try exact C; try reflexivity; [eexists; reflexivity|lia|split; vm_compute; [discriminate|reflexivity]|split; [vm_compute; discriminate|exact C]|constructor]|].
  split; [split; try exact C; try reflexivity; [eexists; reflexivity|lia|split; vm_compute; [discriminate|reflexivity]|split; [vm_compute; discriminate|exact C]|constructor]|].
  split; [reflexivity|]. split; [cbn; lia|].
  split. { exists 100. split; [reflexivity|]. split; [lia|]. split; [vm_compute; reflexivity|]. split; [split; [lia|]; split; [split; vm_compute; discriminate|vm_compute; reflexivity]|]. intros x Hx. cbn in Hx. lia. }
  split; reflexivity.
Qed.
Example C76_ex_int : match invoke (crypto_env (only_crypto toy) [] "f" (hash_prog Keccak256 TInt)) 300 "f" [VI64 (2 ^ 64 - 2); VI64 (2 ^ 64 - 1)] st76 with
  | RVals ws st' => ws = [VI32 216; VI32 32] /\ bytes_at (smem st') 216 32 = 254 :: repeat 255 15 ++ repeat 0 16 /\ bytes_at (smem st') 200 16 = 254 :: repeat 255 15 | _ => False end.
Proof. vm_compute. auto. Qed.
Example C76_ex_twice : match invoke (crypto_env (only_crypto toy) [] "f" (twice_prog 3)) 300 "f" [VI32 100; VI32 3] st76 with
  | RVals ws st' => ws = [VI32 232; VI32 32] /\ bytes_at (smem st') 232 32 = repeat 0 29 ++ [3; 2; 1] | _ => False end.
Proof. vm_compute. auto. Qed.
