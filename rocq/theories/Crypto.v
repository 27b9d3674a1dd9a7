(** * Signature words: host functions and generated code (model and proof support) *)
From Coq Require Import ZArith String List Bool Lia Arith.
Import ListNotations.
From Verif Require Import Wasm Std StdEnv WasmLogic WasmTac Spec Mem MemFacts Bytes SpecBytes SpecUtf8 Clar Codec Rep RepFacts ReadProofs WriteProofs Emit EmitFacts EmitProofs CallProofs PropCodec PropLedger
  Ast SpecLang Lang Typing LangFacts LangBase LangCtl LangEarly LangMem LangSeq LangList LangArith LangCall LangPrim SpecChain Principal SpecCrypto.
Open Scope string_scope.
Open Scope list_scope.
Open Scope Z_scope.

(** ** The host functions; the cryptography is the parameter [cr] *)
Section HostFuns.
Context {HS : Type} (cr : crypto).
(** linker.rs 4827-4896.  [Value::buff_from] of the key cannot fail *)
Definition i_secp256k1_recover (a : list val) (st : store HS) : result HS :=
  match a with
  | [VI32 mo; VI32 ml; VI32 so; VI32 sl; VI32 ro; VI32 _] =>
      let answer v :=
        match write_to_wasm (smem st) recover_ty (sgn32 ro) (sgn32 ro + get_type_size recover_ty) v true with
        | Some (m, _, _) => RVals [] (with_mem st m)
        | None => RTrap THost st
        end in
      match hread (smem st) (sgn32 mo) (sgn32 ml) with
      | None => RTrap THost st
      | Some msg =>
          if negb (length msg =? 32)%nat then RTrap THost st else
          match hread (smem st) (sgn32 so) (sgn32 sl) with
          | None => RTrap THost st
          | Some sg =>
              if negb (length sg =? 65)%nat || (3 <? nth 64 sg 0) then answer (CErr (CUInt 2)) else
              match cr_recover cr msg sg with
              | Some k => answer (COk (CBuff k))
              | None => answer (CErr (CUInt 1))
              end
          end
      end
  | _ => RStuck
  end.
(** linker.rs 4909-4962 *)
Definition i_secp256k1_verify (a : list val) (st : store HS) : result HS :=
  match a with
  | [VI32 mo; VI32 ml; VI32 so; VI32 sl; VI32 ko; VI32 kl] =>
      match hread (smem st) (sgn32 mo) (sgn32 ml) with
      | None => RTrap THost st
      | Some msg =>
          if negb (length msg =? 32)%nat then RTrap THost st else
          match hread (smem st) (sgn32 so) (sgn32 sl) with
          | None => RTrap THost st
          | Some sg =>
              if (length sg <? 64)%nat || (65 <? length sg)%nat || ((length sg =? 65)%nat && (3 <? nth 64 sg 0)) then RVals [VI32 0] st else
              match hread (smem st) (sgn32 ko) (sgn32 kl) with
              | None => RTrap THost st
              | Some pk => if negb (length pk =? 33)%nat then RTrap THost st else RVals [VI32 (if cr_verify cr msg sg pk then 1 else 0)] st
              end
          end
      end
  | _ => RStuck
  end.
(** linker.rs 4975-5050; [cr_address] is [Secp256k1PublicKey::from_slice] followed by the
    address computation of the contract's Clarity version and network *)
Definition i_principal_of (a : list val) (st : store HS) : result HS :=
  match a with
  | [VI32 ko; VI32 kl; VI32 po] =>
      match read_from_wasm (smem st) (TBuff 33) (sgn32 ko) (sgn32 kl) with
      | Some (CBuff k) =>
          if negb (length k =? 33)%nat then RTrap THost st else
          match cr_address cr k with
          | Some (v, h) =>
              match write_to_wasm (smem st) TPrin (sgn32 po) (sgn32 po) (CPrin (PStd v h)) false with
              | Some (m, _, _) => RVals [VI32 1; VI32 po; VI32 22; VI64 0; VI64 0] (with_mem st m)
              | None => RTrap THost st
              end
          | None => RVals [VI32 0; VI32 0; VI32 0; VI64 1; VI64 0] st
          end
      | _ => RTrap THost st
      end
  | _ => RStuck
  end.
(** linker.rs 4711-4736 ([keccak256]), 4784-4809 ([sha512_256]) *)
Definition i_hash (w : khash) (a : list val) (st : store HS) : result HS :=
  match a with
  | [VI32 bo; VI32 bl; VI32 ro; VI32 rl] =>
      match hread (smem st) (sgn32 bo) (sgn32 bl) with
      | Some bs => match hwrite (smem st) (sgn32 ro) (cr_hash cr w bs) with Some m => RVals [VI32 ro; VI32 rl] (with_mem st m) | None => RTrap THost st end
      | None => RTrap THost st
      end
  | _ => RStuck
  end.
Definition hash_name (w : khash) : string := match w with Keccak256 => "stdlib.keccak256" | Sha512_256 => "stdlib.sha512_256" end.
Definition crypto_host : list (string * (list vt * (list val -> store HS -> result HS))) :=
  [("stdlib.secp256k1_recover", ([T32; T32; T32; T32; T32; T32], i_secp256k1_recover));
   ("stdlib.secp256k1_verify", ([T32; T32; T32; T32; T32; T32], i_secp256k1_verify));
   ("stdlib.principal_of", ([T32; T32; T32], i_principal_of));
   ("stdlib.keccak256", ([T32; T32; T32; T32], i_hash Keccak256));
   ("stdlib.sha512_256", ([T32; T32; T32; T32], i_hash Sha512_256))].
(** the module's imports of that name are these *)
Definition host_crypto (E : env HS) : Prop :=
  forall f h, assoc f crypto_host = Some h -> efun E f = None /\ ehost E f = Some h.
End HostFuns.

(** ** The generated code; the cost charges are left out *)
(** words/secp256k1.rs 21-57 *)
Definition e_recover (m s : frag) : frag := fun d B l =>
  let '(cm, l) := m d B l in let '(cs, l) := s d B l in
  let '(ro, size, cc, l) := create_call_stack_local recover_ty true true l in
  (cm ++ cs ++ cc ++ [LGet ro; Const (VI32 (size mod m32)); Call "stdlib.secp256k1_recover"] ++ read_from_memory recover_ty ro 0, l).
(** words/secp256k1.rs 72-100 *)
Definition e_verify (m s k : frag) : frag := fun d B l =>
  let '(cm, l) := m d B l in let '(cs, l) := s d B l in let '(ck, l) := k d B l in
  (cm ++ cs ++ ck ++ [Call "stdlib.secp256k1_verify"], l).
(** words/principal.rs 304-336 *)
Definition e_principal_of (k : frag) : frag := fun d B l =>
  let '(ck, l) := k d B l in
  let '(ro, _, cc, l) := create_call_stack_local (TOpt (TResp TPrin TNo)) false true l in
  (ck ++ cc ++ [LGet ro; Call "stdlib.principal_of"], l).
(** words/hashing.rs 121-139 and 209-227: an integer operand is stored, a buffer is there *)
Definition is_buff (t : ty) : bool := match t with TBuff _ => true | _ => false end.
Definition e_bytes (t : ty) (a : frag) : frag := if is_buff t then a else fun d B l =>
  let '(ca, l) := a d B l in
  let '(bo, size, cc, l) := create_call_stack_local t false true l in
  let '(cw, l) := write_to_memory t bo 0 l in
  (ca ++ cc ++ cw ++ [LGet bo; Const (VI32 (size mod m32))], l).
(** words/hashing.rs 141-164 and 229-252 *)
Definition e_digest (w : khash) (a : frag) : frag := fun d B l =>
  let '(ca, l) := a d B l in
  let '(bl, l) := add_local T32 l in
  let '(ro, size, cc, l) := create_call_stack_local (TBuff 32) false true l in
  (ca ++ [LTee bl] ++ cc ++ [LGet ro; Const (VI32 (size mod m32)); Call (hash_name w)], l).
Fixpoint comp_kexp (S : list (string * fsig)) (rt : ty) (s : kexp) : frag :=
  match s with
  | KExpr e => compile S rt e
  | KRecover m s => e_recover (comp_kexp S rt m) (comp_kexp S rt s)
  | KVerify m s k => e_verify (comp_kexp S rt m) (comp_kexp S rt s) (comp_kexp S rt k)
  | KPrincipalOf k => e_principal_of (comp_kexp S rt k)
  | KHash w a => e_digest w (e_bytes (kexp_ty a) (comp_kexp S rt a))
  | KLet x a b => e_let x (kexp_ty a) (comp_kexp S rt a) (comp_kexp S rt b)
  | KIf c a b => e_if (kexp_ty a) (comp_kexp S rt c) (comp_kexp S rt a) (comp_kexp S rt b)
  end.

Lemma rep_buff m P t v ws n : t = TBuff n -> rep m P t v ws -> has_type t v -> exists o bs, v = CBuff bs /\ ws = [VI32 o; VI32 (Z.of_nat (length bs))] /\ holds m o bs /\ Z.of_nat (length bs) <= n.
Proof.
  intros -> Hr Hty. destruct v; cbn [has_type rep] in *; try contradiction. destruct Hr as (o & -> & _ & _ & Hh & _). destruct Hty as (Hl & _). eauto 6.
Qed.
Lemma hread_at m o bs : holds m o bs -> msize m < 2 ^ 31 -> hread m (sgn32 o) (sgn32 (Z.of_nat (length bs))) = Some bs.
Proof. intros H Hm. destruct (holds_small _ _ _ H Hm) as (-> & ->). apply hread_holds, H. Qed.

Section Words.
Context {HS : Type} {CH : chain HS} (E : env HS) (cr : crypto) (Hcr : crypto_ok cr) (HN : host_crypto cr E).
Context (rt : ty) (L : list (ty * value * Z)) (X : Z) (HX0 : 0 <= X) (Hcap : chain_cap (HS := HS) < 2 ^ 31).
Notation wp := (wp E).
Notation impl := (impl E rt L X).
Notation ctx := (ctx L X).
Notation impl_next1 := (impl_next1 E rt L X).
Notation impl_fr := (impl_fr E rt L X).
Notation impl_ext := (impl_ext E rt L X).
Ltac fr_of H := let P := fresh "P" in pose proof (impl_fr _ _ _ _ _ H) as P.
Ltac ext_of H E X := let W := fresh in
  match type of E with ?c ?d ?B ?l = _ =>
    assert (W : lwf l) by (assumption || (eapply lext_wf; eassumption));
    pose proof (impl_ext _ _ _ _ _ _ _ _ _ _ H E W) as X; clear W end.
Ltac lenl := repeat match goal with H : lext _ _ |- _ => apply lext_len in H | H : moved _ _ _ _ _ _ _ _ |- _ => apply m_ls, lkeep_len in H end; lia.

Lemma served f ts h args (st : store HS) (R : result HS -> Prop) : assoc f (crypto_host cr) = Some (ts, h) -> length ts = length args -> R (h args st) -> called E f args st R.
Proof.
  intros Ha Hl HR. destruct (HN _ _ Ha) as (H1 & H2). split.
  - unfold fun_arity. rewrite H1, H2, Hl. reflexivity.
  - eapply wpf_host; [exact H1|exact H2|exact HR].
Qed.

(** ** Writing the answer of [secp256k1-recover?] *)
Lemma recover_size : call_stack_size recover_ty true true = 89 /\ get_type_size recover_ty = 28.
Proof. split; reflexivity. Qed.
Lemma answer_ok (st : store HS) v ro : has_type recover_ty v -> msize (smem st) < 2 ^ 31 -> 0 <= ro -> ro + 89 <= msize (smem st) ->
  gave st ro recover_ty (Done v (shost st))
    (match write_to_wasm (smem st) recover_ty (sgn32 ro) (sgn32 ro + get_type_size recover_ty) v true with
     | Some (m, _, _) => RVals [] (with_mem st m) | None => RTrap THost st end).
Proof.
  intros Ht Hm H0 H1. set (t := recover_ty) in *. assert (Hok : ty_ok t) by (apply ty_okb_ok; reflexivity). assert (Hst : no_trait t) by (cbn; auto).
  assert (Hcs : call_stack_size t true true = 89) by reflexivity. cbn [call_stack_size] in Hcs. assert (Hgs : get_type_size t = 28) by reflexivity. assert (Hmp : max_payload t = 33) by reflexivity.
  assert (sgn32 ro = ro) as -> by (apply sgn32_small; change (2 ^ 31) with h32 in Hm; lia).
  destruct (write_good t v (smem st) ro (ro + get_type_size t) Hok Hst Ht Hm) as (Hp' & m' & ws & Ew & (S1 & R1) & Hw & Hr); unfold apart; try lia.
  rewrite Ew. cbn [gave]. assert (Hp : 0 <= payload t v) by (apply payload_nonneg). change (call_stack_size t true true) with 89.
  exists m', ws. split; [reflexivity|]. split; [split; [exact S1|]; intros x Hx; apply R1; lia|]. split; [exact Hw|].
  split; [|exact Ht]. eapply rep_frame; [reflexivity| | |exact Hr]; cbv beta; [reflexivity|]. intros x Hx. unfold seg. lia.
Qed.
Lemma recover_called m s mo so ro (st : store HS) rs z : do_recover cr (CBuff m) (CBuff s) (shost st) = Some rs -> holds (smem st) mo m -> holds (smem st) so s ->
  msize (smem st) < 2 ^ 31 -> 0 <= ro -> ro + 89 <= msize (smem st) ->
  called E "stdlib.secp256k1_recover" [VI32 mo; VI32 (Z.of_nat (length m)); VI32 so; VI32 (Z.of_nat (length s)); VI32 ro; VI32 z] st (gave st ro recover_ty rs).
Proof.
  intros Hrs Hm Hs Hsz H0 H1. eapply served; [reflexivity|reflexivity|]. cbn [i_secp256k1_recover]. rewrite (hread_at _ _ _ Hm Hsz), (hread_at _ _ _ Hs Hsz).
  unfold do_recover, or_abort, recover in Hrs. destruct (Nat.eqb_spec (length m) 32) as [Hl|Hl]; cbn [negb]; injection Hrs as <-; [|split; [reflexivity|eauto]].
  unfold recoverable. rewrite Z.leb_antisym. destruct (Nat.eqb_spec (length s) 65) as [Hl2|Hl2]; cbn [negb orb andb].
  - destruct (3 <? nth 64 s 0); cbn [negb orb]; [apply answer_ok; auto; cbn; lia|].
    destruct (cr_recover cr m s) as [key|] eqn:Hk; apply answer_ok; auto; [|cbn; lia]. destruct (proj1 Hcr _ _ _ Hk) as (K1 & K2). cbn [has_type recover_ty]. split; [rewrite K1; cbn; lia|exact K2].
  - apply answer_ok; auto. cbn. lia.
Qed.
Lemma recover_ok G km ks fm fs (c1 c2 : frag) (m1 m2 : venv -> M HS value) : impl G (TBuff km) fm c1 m1 -> impl G (TBuff ks) fs c2 m2 ->
  impl G recover_ty (fm + fs + 89) (e_recover c1 c2) (fun r => bind (m1 r) (fun m => bind (m2 r) (fun s => do_recover cr m s))).
Proof.
  intros H1 H2. fr_of H1. fr_of H2. split; [lia|]. intros d B l code l' HC Hw. unfold e_recover in HC.
  destruct (c1 d B l) as [cm l1] eqn:E1. destruct (c2 d B l1) as [cs l2] eqn:E2.
  destruct (create_call_stack_local recover_ty true true l2) as [[[ro sz] cc] l3] eqn:Ec.
  pose proof (f_equal fst HC) as HC1; pose proof (f_equal snd HC) as HC2; cbn [fst snd] in HC1, HC2; clear HC; subst code l'.
  assert (Hsz : sz = call_stack_size recover_ty true true) by (unfold create_call_stack_local in Ec; destruct (add_local T32 l2); congruence). change (call_stack_size recover_ty true true) with 89 in Hsz. subst sz.
  ext_of H1 E1 X1. ext_of H2 E2 X2. assert (Y2 : lext l l2) by (eapply lext_trans; eauto).
  destruct (reserve_run E L X HX0 _ _ _ _ _ _ _ _ Ec (lext_wf _ _ X2)) as (X3 & Lr & Nr & Hres).
  assert (Y3 : lext l l3) by (eapply lext_trans; eauto). split; [exact Y3|].
  intros F r js ls k st sp Q rs Hm HC HL HX HW. rewrite <- !app_assoc.
  pose proof (c_lo _ _ _ _ _ _ _ _ _ _ _ HC) as Hlo. pose proof (c_room _ _ _ _ _ _ _ _ _ _ _ HC) as Hrm. pose proof (c_cap _ _ _ _ _ _ _ _ _ _ _ HC) as Hcp.
  eapply (impl_next1 _ _ _ _ _ _ _ _ _ _ H1 E1 F F); [eapply moved_refl; exact HC| |apply lext_refl; exact Hw|auto|eapply ctx_less; [exact HC|lia]|exact Hm|exact HX|lenl|]; [lia|].
  intros v1 h1 ls1 st1 sp1 ws1 HG1 HM1 Hm1 HL1. cbn [Z.add] in HM1. cbv beta in Hm1.
  assert (HCa : ctx G B r F l1 ls1 st1 sp1 (fs + 89)) by (eapply ctx_moved; [exact HC|exact X1|exact HM1|lia]).
  eapply (impl_next1 _ _ _ _ _ _ _ _ _ _ H2 E2 F F); [exact HM1| |exact X1|auto|eapply ctx_less; [exact HCa|lia]|exact Hm1|exact HX|lenl|]; [lia|].
  intros v2 h2 ls2 st2 sp2 ws2 HG2 HM2 Hm2 HL2. cbv beta in Hm2.
  pose proof (rep_moved _ _ _ _ _ _ _ _ _ _ _ _ (g_moved _ _ _ _ _ _ _ _ _ _ _ _ _ HG2) (g_rep _ _ _ _ _ _ _ _ _ _ _ _ _ HG1)) as RV1.
  destruct (rep_buff _ _ _ _ _ km eq_refl RV1 (g_type _ _ _ _ _ _ _ _ _ _ _ _ _ HG1)) as (mo & mb & -> & -> & Hh1 & _).
  destruct (rep_buff _ _ _ _ _ ks eq_refl (g_rep _ _ _ _ _ _ _ _ _ _ _ _ _ HG2) (g_type _ _ _ _ _ _ _ _ _ _ _ _ _ HG2)) as (so & sb & -> & -> & Hh2 & _).
  assert (HC2 : ctx G B r F l2 ls2 st2 sp2 89) by (eapply ctx_moved; [exact HC|exact Y2|exact HM2|lia]).
  pose proof (ctx_msize _ _ _ _ _ _ _ _ _ _ _ _ _ _ _ HC HM2) as Hmz. pose proof (m_rng _ _ _ _ _ _ _ _ HM2) as Hr2.
  eapply Hres; [exact HC2|lia|lenl|]. intros ls3 st3 Hh3 Hmem3 HM3 Hol HC3.
  assert (HM4 : moved l ls st sp (fm + fs + 89) ls3 st3 (sp2 + 89)) by (eapply moved_trans; [exact Y2|exact HM2|exact HM3]).
  cbn [app]. eapply wp_lget; [exact Hol|]. apply wp_const.
  eapply (call_gave E rt _ [VI32 mo; VI32 (Z.of_nat (length mb)); VI32 so; VI32 (Z.of_nat (length sb)); VI32 sp2; VI32 (89 mod m32)] recover_ty st3 sp2 rs ro l3);
    [|exact HX|exact HM4|lia|exact Y3|exact Hol|lia|lia|change (call_stack_size recover_ty true true) with 89; lia|eapply c_up; exact HC|exact HW].
  apply recover_called; rewrite ?Hmem3, ?Hh3; auto; lia.
Qed.

(** ** [secp256k1-verify] *)
Lemma verify_called m s p mo so po (st : store HS) rs : do_verify cr (CBuff m) (CBuff s) (CBuff p) (shost st) = Some rs -> holds (smem st) mo m -> holds (smem st) so s -> holds (smem st) po p ->
  msize (smem st) < 2 ^ 31 ->
  called E "stdlib.secp256k1_verify" [VI32 mo; VI32 (Z.of_nat (length m)); VI32 so; VI32 (Z.of_nat (length s)); VI32 po; VI32 (Z.of_nat (length p))] st
    (fun r => match rs with Done (CBool b) h => r = RVals [VI32 (b2z b)] st /\ h = shost st | Abort c => refusal c r | _ => False end).
Proof.
  intros Hrs Hm Hs Hp Hsz. eapply served; [reflexivity|reflexivity|]. cbn [i_secp256k1_verify]. rewrite (hread_at _ _ _ Hm Hsz), (hread_at _ _ _ Hs Hsz), (hread_at _ _ _ Hp Hsz).
  unfold do_verify, or_abort, verify in Hrs. destruct (Nat.eqb_spec (length m) 32) as [Hl|Hl]; cbn [negb]; [|injection Hrs as <-; split; [reflexivity|eauto]].
  assert (K : (length s <? 64)%nat || (65 <? length s)%nat || ((length s =? 65)%nat && (3 <? nth 64 s 0)) = negb (verifiable s)).
  { unfold verifiable, recoverable. rewrite Z.leb_antisym. destruct (Nat.ltb_spec (length s) 64), (Nat.ltb_spec 65 (length s)), (Nat.eqb_spec (length s) 64), (Nat.eqb_spec (length s) 65); cbn [orb andb negb]; try lia; try reflexivity; try (destruct (3 <? nth 64 s 0); reflexivity). }
  rewrite K. destruct (verifiable s); cbn [negb]; [|injection Hrs as <-; split; reflexivity].
  destruct (Nat.eqb_spec (length p) 33) as [Hl2|Hl2]; cbn [negb]; injection Hrs as <-; [|split; [reflexivity|eauto]]. split; [|reflexivity]. destruct (cr_verify cr m s p); reflexivity.
Qed.
Lemma verify_ok G km ks kp fm fs fp (c1 c2 c3 : frag) (m1 m2 m3 : venv -> M HS value) : impl G (TBuff km) fm c1 m1 -> impl G (TBuff ks) fs c2 m2 -> impl G (TBuff kp) fp c3 m3 ->
  impl G TBool (fm + fs + fp) (e_verify c1 c2 c3) (fun r => bind (m1 r) (fun m => bind (m2 r) (fun s => bind (m3 r) (fun p => do_verify cr m s p)))).
Proof.
  intros H1 H2 H3. fr_of H1. fr_of H2. fr_of H3. split; [lia|]. intros d B l code l' HC Hw. unfold e_verify in HC.
  destruct (c1 d B l) as [cm l1] eqn:E1. destruct (c2 d B l1) as [cs l2] eqn:E2. destruct (c3 d B l2) as [cp l3] eqn:E3. injection HC as <- <-.
  ext_of H1 E1 X1. ext_of H2 E2 X2. assert (Y2 : lext l l2) by (eapply lext_trans; eauto). ext_of H3 E3 X3.
  assert (Y3 : lext l l3) by (eapply lext_trans; eauto). split; [exact Y3|].
  intros F r js ls k st sp Q rs Hm HC HL HX HW. rewrite <- !app_assoc.
  pose proof (c_lo _ _ _ _ _ _ _ _ _ _ _ HC) as Hlo. pose proof (c_room _ _ _ _ _ _ _ _ _ _ _ HC) as Hrm. pose proof (c_cap _ _ _ _ _ _ _ _ _ _ _ HC) as Hcp.
  eapply (impl_next1 _ _ _ _ _ _ _ _ _ _ H1 E1 F F); [eapply moved_refl; exact HC| |apply lext_refl; exact Hw|auto|eapply ctx_less; [exact HC|lia]|exact Hm|exact HX|lenl|]; [lia|].
  intros v1 h1 ls1 st1 sp1 ws1 HG1 HM1 Hm1 HL1. cbn [Z.add] in HM1. cbv beta in Hm1.
  assert (HCa : ctx G B r F l1 ls1 st1 sp1 (fs + fp)) by (eapply ctx_moved; [exact HC|exact X1|exact HM1|lia]).
  eapply (impl_next1 _ _ _ _ _ _ _ _ _ _ H2 E2 F F); [exact HM1| |exact X1|auto|eapply ctx_less; [exact HCa|lia]|exact Hm1|exact HX|lenl|]; [lia|].
  intros v2 h2 ls2 st2 sp2 ws2 HG2 HM2 Hm2 HL2. cbv beta in Hm2.
  assert (HCb : ctx G B r F l2 ls2 st2 sp2 fp) by (eapply ctx_moved; [exact HC|exact Y2|exact HM2|lia]).
  eapply (impl_next1 _ _ _ _ _ _ _ _ _ _ H3 E3 F F); [exact HM2| |exact Y2|auto|exact HCb|exact Hm2|exact HX|lenl|]; [lia|].
  intros v3 h3 ls3 st3 sp3 ws3 HG3 HM3 Hm3 HL3. cbv beta in Hm3.
  pose proof (g_moved _ _ _ _ _ _ _ _ _ _ _ _ _ HG3) as HMc.
  pose proof (rep_moved _ _ _ _ _ _ _ _ _ _ _ _ HMc (rep_moved _ _ _ _ _ _ _ _ _ _ _ _ (g_moved _ _ _ _ _ _ _ _ _ _ _ _ _ HG2) (g_rep _ _ _ _ _ _ _ _ _ _ _ _ _ HG1))) as RV1.
  pose proof (rep_moved _ _ _ _ _ _ _ _ _ _ _ _ HMc (g_rep _ _ _ _ _ _ _ _ _ _ _ _ _ HG2)) as RV2.
  destruct (rep_buff _ _ _ _ _ km eq_refl RV1 (g_type _ _ _ _ _ _ _ _ _ _ _ _ _ HG1)) as (mo & mb & -> & -> & Hh1 & _).
  destruct (rep_buff _ _ _ _ _ ks eq_refl RV2 (g_type _ _ _ _ _ _ _ _ _ _ _ _ _ HG2)) as (so & sb & -> & -> & Hh2 & _).
  destruct (rep_buff _ _ _ _ _ kp eq_refl (g_rep _ _ _ _ _ _ _ _ _ _ _ _ _ HG3) (g_type _ _ _ _ _ _ _ _ _ _ _ _ _ HG3)) as (po & pb & -> & -> & Hh3 & _).
  pose proof (ctx_msize _ _ _ _ _ _ _ _ _ _ _ _ _ _ _ HC HM3) as Hmz.
  destruct (verify_called mb sb pb mo so po st3 rs Hm3 Hh1 Hh2 Hh3 ltac:(lia)) as (A1 & A2).
  cbn [app]. change (rev [VI32 po; VI32 (Z.of_nat (length pb))] ++ rev [VI32 so; VI32 (Z.of_nat (length sb))] ++ rev [VI32 mo; VI32 (Z.of_nat (length mb))] ++ k)
    with (rev [VI32 mo; VI32 (Z.of_nat (length mb)); VI32 so; VI32 (Z.of_nat (length sb)); VI32 po; VI32 (Z.of_nat (length pb))] ++ k).
  eapply wp_call_all; [exact A1|reflexivity|]. eapply wpf_mono; [exact A2|]. intros res Hres. unfold qcall. cbv beta in Hres.
  destruct rs as [v h|v h|c]; [|contradiction|].
  - destruct v as [| |b| | | | | | | | | | |]; try contradiction. destruct Hres as (-> & ->). cbn [ret_call cont].
    eapply (HW (CBool b) _ ls3 st3 sp3 [VI32 (b2z b)] eq_refl). constructor; [exact HM3|reflexivity|exact I|reflexivity].
  - destruct Hres as (-> & st' & ->). cbn [ret_call cont exits] in *. exact (proj2 HX eq_refl _).
Qed.

(** ** [principal-of?] *)
Lemma principal_of_called p po ro (st : store HS) rs : do_principal_of cr (CBuff p) (shost st) = Some rs -> holds (smem st) po p -> Z.of_nat (length p) <= 33 ->
  msize (smem st) < 2 ^ 31 -> 0 <= ro -> ro + 162 <= msize (smem st) ->
  called E "stdlib.principal_of" [VI32 po; VI32 (Z.of_nat (length p)); VI32 ro] st
    (fun r => match rs with
       | Done v h => exists m' ws, r = RVals ws (with_mem st m') /\ only_changes (smem st) m' ro 162 /\ rep m' (seg ro 162) (TResp TPrin TUInt) v ws /\ has_type (TResp TPrin TUInt) v /\ h = shost st
       | Abort c => refusal c r
       | _ => False end).
Proof.
  intros Hrs Hp Hpl Hsz H0 H1. eapply served; [reflexivity|reflexivity|]. cbn [i_principal_of read_from_wasm]. rewrite (hread_at _ _ _ Hp Hsz).
  unfold buff_from. rewrite (proj2 (Z.leb_le _ _)) by (unfold max_value_size; lia).
  unfold do_principal_of, or_abort, principal_of in Hrs. destruct (Nat.eqb_spec (length p) 33) as [Hl|Hl]; cbn [negb]; injection Hrs as <-; [|split; [reflexivity|eauto]].
  destruct (cr_address cr p) as [[v h]|] eqn:Ha.
  - pose proof (proj1 (proj2 Hcr) _ _ _ Ha) as Hok. assert (Hty : has_type TPrin (CPrin (PStd v h))) by exact Hok. change (2 ^ 31) with h32 in Hsz.
    pose proof (prin_bytes_byte (PStd v h) Hok) as Hb. assert (Hl22 : length (prin_bytes (PStd v h)) = 22%nat) by (cbn [prin_bytes length]; destruct Hok as (_ & Hh & _); rewrite app_length, Hh; reflexivity).
    rewrite (sgn32_small ro) by lia. cbn [write_to_wasm]. rewrite (prin_mem_eq (PStd v h) Hok), hwrite_ok by lia. unfold write_repr. cbn [fst snd].
    exists (write_bytes (smem st) ro (prin_bytes (PStd v h))), [VI32 1; VI32 ro; VI32 22; VI64 0; VI64 0]. split; [reflexivity|]. split.
    { split; [apply msize_write|]. intros x Hx. apply rd_write_other. lia. }
    split; [|split; [exact Hty|reflexivity]]. cbn [rep]. exists [VI32 ro; VI32 22], [VI64 0; VI64 0]. split; [reflexivity|]. split; [|repeat constructor; cbn; lia].
    exists ro. rewrite Hl22. split; [reflexivity|]. change m32 with (2 * h32). split; [lia|]. split; [lia|]. split; [apply holds_write; try assumption; change m32 with (2 * h32); lia|].
    intros x Hx. unfold seg. lia.
  - exists (smem st), [VI32 0; VI32 0; VI32 0; VI64 1; VI64 0]. split; [destruct st; reflexivity|]. split; [split; [reflexivity|auto]|]. split; [|split; [cbn; lia|reflexivity]].
    cbn [rep]. exists [VI32 0; VI32 0], [VI64 1; VI64 0]. split; [reflexivity|]. split; [repeat constructor; cbn; lia|reflexivity].
Qed.
Lemma principal_of_ok G kp fp (c1 : frag) (m1 : venv -> M HS value) : impl G (TBuff kp) fp c1 m1 -> kp <= 33 ->
  impl G (TResp TPrin TUInt) (fp + 162) (e_principal_of c1) (fun r => bind (m1 r) (do_principal_of cr)).
Proof.
  intros H1 Hkp. fr_of H1. split; [lia|]. intros d B l code l' HC Hw. unfold e_principal_of in HC.
  destruct (c1 d B l) as [cp l1] eqn:E1. destruct (create_call_stack_local (TOpt (TResp TPrin TNo)) false true l1) as [[[ro sz] cc] l3] eqn:Ec. injection HC as <- <-.
  assert (Hsz : sz = 162) by (unfold create_call_stack_local in Ec; destruct (add_local T32 l1); injection Ec as _ <- _ _; reflexivity). subst sz.
  ext_of H1 E1 X1.
  destruct (reserve_run E L X HX0 _ _ _ _ _ _ _ _ Ec (lext_wf _ _ X1)) as (X3 & Lr & Nr & Hres).
  assert (Y3 : lext l l3) by (eapply lext_trans; eauto). split; [exact Y3|].
  intros F r js ls k st sp Q rs Hm HC HL HX HW. rewrite <- !app_assoc.
  pose proof (c_lo _ _ _ _ _ _ _ _ _ _ _ HC) as Hlo. pose proof (c_room _ _ _ _ _ _ _ _ _ _ _ HC) as Hrm. pose proof (c_cap _ _ _ _ _ _ _ _ _ _ _ HC) as Hcp.
  eapply (impl_next1 _ _ _ _ _ _ _ _ _ _ H1 E1 F F); [eapply moved_refl; exact HC| |apply lext_refl; exact Hw|auto|eapply ctx_less; [exact HC|lia]|exact Hm|exact HX|lenl|]; [lia|].
  intros v1 h1 ls1 st1 sp1 ws1 HG1 HM1 Hm1 HL1. cbn [Z.add] in HM1. cbv beta in Hm1.
  destruct (rep_buff _ _ _ _ _ kp eq_refl (g_rep _ _ _ _ _ _ _ _ _ _ _ _ _ HG1) (g_type _ _ _ _ _ _ _ _ _ _ _ _ _ HG1)) as (po & pb & -> & -> & Hh1 & Hpl).
  assert (HC2 : ctx G B r F l1 ls1 st1 sp1 162) by (eapply ctx_moved; [exact HC|exact X1|exact HM1|lia]).
  pose proof (ctx_msize _ _ _ _ _ _ _ _ _ _ _ _ _ _ _ HC HM1) as Hmz. pose proof (m_rng _ _ _ _ _ _ _ _ HM1) as Hr1.
  eapply Hres; [exact HC2|lia|lenl|]. intros ls3 st3 Hh3 Hmem3 HM3 Hol HC3.
  assert (HM4 : moved l ls st sp (fp + 162) ls3 st3 (sp1 + 162)) by (eapply moved_trans; [exact X1|exact HM1|exact HM3]).
  cbn [app]. eapply wp_lget; [exact Hol|].
  destruct (principal_of_called pb po sp1 st3 rs) as (A1 & A2); rewrite ?Hmem3, ?Hh3; auto; try lia.
  change (VI32 sp1 :: rev [VI32 po; VI32 (Z.of_nat (length pb))] ++ k) with (rev [VI32 po; VI32 (Z.of_nat (length pb)); VI32 sp1] ++ k).
  eapply wp_call_all; [exact A1|reflexivity|]. eapply wpf_mono; [exact A2|]. intros res Hrr. unfold qcall. cbv beta in Hrr.
  destruct rs as [v h|v h|c]; [|contradiction|].
  - destruct Hrr as (m' & ws & -> & Hoc & Hrp & Htp & ->). cbn [ret_call cont].
    eapply (HW v _ ls3 (with_mem st3 m') (sp1 + 162) ws eq_refl). constructor; [|cbn [smem with_mem]|exact Htp|reflexivity].
    + eapply moved_write; [exact HM4|exact Hoc|lia].
    + eapply rep_weaken; [|exact Hrp]. intros x Hx. unfold seg in Hx. split; [lia|]. eapply c_up; [exact HC|lia].
  - destruct Hrr as (-> & st' & ->). cbn [ret_call cont exits] in *. exact (proj2 HX eq_refl _).
Qed.

(** ** [keccak256], [sha512/256] *)
Lemma impl_same G t fr c (m m' : venv -> M HS value) : (forall r h, m r h = m' r h) -> impl G t fr c m -> impl G t fr c m'.
Proof.
  intros He (H0 & H). split; [exact H0|]. intros d B l code l' HC Hw. destruct (H d B l code l' HC Hw) as (X1 & H'). split; [exact X1|].
  intros F r js ls k st sp Q rs Hm. rewrite <- He in Hm. revert Hm. apply H'.
Qed.
Lemma nws_bytes n : words_bytes (nws n) = le_bytes 16 (n mod 2 ^ 128).
Proof.
  unfold nws. cbn [words_bytes flat_map word_bytes]. rewrite app_nil_r. transitivity (le_bytes 16 n); [|symmetry; exact (le_bytes_mod 16 n)].
  change 16%nat with (8 + 8)%nat. rewrite le_bytes_app. f_equal; [exact (le_bytes_mod 8 n)|exact (le_bytes_mod 8 (n / 2 ^ 64))].
Qed.
(** the operand as a buffer *)
Definition bytes_ty (t : ty) : ty := if is_buff t then t else TBuff 16.
Definition bytes_room (t : ty) : Z := if is_buff t then 0 else 16.
Definition do_bytes (v : value) : M HS value := match hashed v with Some l => ret (CBuff l) | None => bad end.
Lemma bytes_ok G t fr (c : frag) (m : venv -> M HS value) : t = TInt \/ t = TUInt \/ is_buff t = true -> impl G t fr c m ->
  impl G (bytes_ty t) (fr + bytes_room t) (e_bytes t c) (fun r => bind (m r) do_bytes).
Proof.
  intros Ht IH. fr_of IH. destruct Ht as [Ht|[Ht|Ht]].
  3: { unfold bytes_ty, bytes_room, e_bytes. rewrite Ht, Z.add_0_r. split; [lia|]. intros d B l code l' HC Hw. ext_of IH HC X1. split; [exact X1|].
    intros F r js ls k st sp Q rs Hm HC0 HL HX HW.
    eapply (impl_next1 _ _ _ _ _ _ _ _ _ _ IH HC F F); [eapply moved_refl; exact HC0| |apply lext_refl; exact Hw|auto|exact HC0|exact Hm|exact HX|lenl|]; [lia|].
    intros v h ls2 st2 sp2 ws HG HM2 Hm2 HLv. pose proof (g_type _ _ _ _ _ _ _ _ _ _ _ _ _ HG) as Hty. pose proof (g_host _ _ _ _ _ _ _ _ _ _ _ _ _ HG) as Hh.
    destruct t; try discriminate Ht. destruct v; cbn [has_type] in Hty; try contradiction. cbn in Hm2. injection Hm2 as <-. rewrite Hh in *. eapply HW; [reflexivity|exact HG]. }
  1,2: assert (Hi : t = TInt \/ t = TUInt) by auto; clear Ht.
  all: assert (K : is_buff t = false /\ get_type_size t = 16 /\ call_stack_size t false true = 16 /\ forall M0 P0 v ws, rep M0 P0 t v ws -> ws = nws match v with CInt n | CUInt n => n | _ => 0 end /\ hashed v = Some (words_bytes ws) /\ EmitProofs.blank t ws = ws)
    by (destruct Hi as [-> | ->]; (split; [reflexivity|]; split; [reflexivity|]; split; [reflexivity|]; intros M0 P0 v ws Hr; destruct v; cbn [rep] in Hr; try contradiction; subst ws;
      split; [reflexivity|]; split; [cbn [hashed]; f_equal; symmetry; apply nws_bytes|reflexivity])).
  all: destruct K as (Kb & Kg & Kc & Kr); unfold bytes_ty, bytes_room, e_bytes; rewrite Kb; split; [lia|]; intros d B l code l' HC Hw.
  all: destruct (c d B l) as [ch l1] eqn:Ech; destruct (create_call_stack_local t false true l1) as [[[bo sz] cc] l2] eqn:Ec; destruct (write_to_memory t bo 0 l2) as [cw l3] eqn:Ew; injection HC as <- <-.
  all: assert (Hsz : sz = 16) by (unfold create_call_stack_local in Ec; destruct (add_local T32 l1); congruence); subst sz.
  all: ext_of IH Ech X1; destruct (reserve_run E L X HX0 _ _ _ _ _ _ _ _ Ec (lext_wf _ _ X1)) as (X2 & Lr & Nr & Hres).
  all: destruct (write_memory_ok E t _ _ _ _ _ Ew (lext_wf _ _ X2) Lr) as (X3 & Hwr).
  all: assert (Y2 : lext l l2) by (eapply lext_trans; eauto); assert (Y3 : lext l l3) by (eapply lext_trans; eauto); split; [exact Y3|].
  all: intros F r js ls k st sp Q rs Hm HC HL HX HW; rewrite <- !app_assoc.
  all: pose proof (c_lo _ _ _ _ _ _ _ _ _ _ _ HC) as Hlo; pose proof (c_room _ _ _ _ _ _ _ _ _ _ _ HC) as Hrm; pose proof (c_cap _ _ _ _ _ _ _ _ _ _ _ HC) as Hcp.
  all: eapply (impl_next1 _ _ _ _ _ _ _ _ _ _ IH Ech F F); [eapply moved_refl; exact HC| |apply lext_refl; exact Hw|auto|eapply ctx_less; [exact HC|lia]|exact Hm|exact HX|lenl|]; [lia|].
  all: intros v h ls1 st1 sp1 ws HG HM1 Hm1 HLv; cbn [Z.add] in HM1; cbv beta in Hm1.
  all: pose proof (g_rep _ _ _ _ _ _ _ _ _ _ _ _ _ HG) as Hrep; destruct (Kr _ _ _ _ Hrep) as (Kw & Kh & Kbl).
  all: assert (HC2 : ctx G B r F l1 ls1 st1 sp1 16) by (eapply ctx_moved; [exact HC|exact X1|exact HM1|lia]).
  all: pose proof (ctx_msize _ _ _ _ _ _ _ _ _ _ _ _ _ _ _ HC HM1) as Hmz; pose proof (m_rng _ _ _ _ _ _ _ _ HM1) as Hr1.
  all: eapply Hres; [exact HC2|lia|lenl|]; intros ls2 st2 Hh2 Hmem2 HM2 Hol HC3.
  all: assert (HM2' : moved l ls st sp (fr + 16) ls2 st2 (sp1 + 16)) by (eapply moved_trans; [exact X1|exact HM1|exact HM2]).
  all: eapply Hwr; [exact Hol|lenl|eapply rep_typed; exact Hrep|lia|lia|rewrite Hmem2, Kg; change m32 with (2 ^ 32); lia|]; intros ls3 m3 K3 O3 W3; rewrite Z.add_0_r, Kg, Kbl in *.
  all: assert (HM3 : moved l ls st sp (fr + 16) ls3 (with_mem st2 m3) (sp1 + 16)) by (eapply moved_write; [eapply moved_ls'; [exact HM2'|exact Y2|exact K3]|exact O3|lia]).
  all: assert (Ho3 : nth_error ls3 bo = Some (VI32 sp1)) by (rewrite (lkeep_get _ _ _ _ K3 Lr); exact Hol).
  all: cbn [app]; eapply wp_lget; [exact Ho3|]; apply wp_const.
  all: unfold do_bytes in Hm1; rewrite Kh in Hm1; injection Hm1 as <-.
  all: assert (Hlb : length (words_bytes ws) = 16%nat) by (rewrite Kw, nws_bytes; apply len_le_bytes).
  all: eapply (HW (CBuff (words_bytes ws)) _ ls3 (with_mem st2 m3) (sp1 + 16) [VI32 sp1; VI32 16] eq_refl).
  all: constructor; [exact HM3| | |cbn [shost with_mem]; rewrite Hh2; reflexivity].
  all: cbn [smem with_mem rep has_type].
  1,3: exists sp1; rewrite Hlb; split; [reflexivity|]; change m32 with (2 ^ 32); split; [lia|]; split; [lia|]; split; [exact W3|]; intros x Hx; split; [lia|]; eapply c_up; [exact HC|lia].
  all: rewrite Hlb; split; [cbn; lia|]; rewrite Kw, nws_bytes; apply le_bytes_byte.
Qed.

Lemma digest_called w bs bo ro (st : store HS) : holds (smem st) bo bs -> msize (smem st) < 2 ^ 31 -> 0 <= ro -> ro + 32 <= msize (smem st) ->
  called E (hash_name w) [VI32 bo; VI32 (Z.of_nat (length bs)); VI32 ro; VI32 32] st
    (fun r => exists m', r = RVals [VI32 ro; VI32 32] (with_mem st m') /\ only_changes (smem st) m' ro 32 /\ holds m' ro (cr_hash cr w bs)).
Proof.
  intros Hb Hm H0 H1. destruct (proj2 (proj2 Hcr) w bs) as (D1 & D2).
  assert (R : exists m', i_hash cr w [VI32 bo; VI32 (Z.of_nat (length bs)); VI32 ro; VI32 32] st = RVals [VI32 ro; VI32 32] (with_mem st m') /\ only_changes (smem st) m' ro 32 /\ holds m' ro (cr_hash cr w bs)).
  { cbn [i_hash]. rewrite (hread_at _ _ _ Hb Hm), (sgn32_small ro) by (change h32 with (2 ^ 31); lia). rewrite hwrite_ok by (rewrite ?D1; cbn; lia).
    eexists. split; [reflexivity|]. split; [split; [apply msize_write|intros x Hx; apply rd_write_other; rewrite D1; cbn; lia]|].
    apply holds_write; rewrite ?D1; cbn [Z.of_nat]; try assumption; change m32 with (2 ^ 32); lia. }
  destruct w; (eapply served; [reflexivity|reflexivity|exact R]).
Qed.
Lemma digest_ok w G kb fr (c : frag) (m : venv -> M HS value) : impl G (TBuff kb) fr c m ->
  impl G (TBuff 32) (fr + 32) (e_digest w c) (fun r => bind (m r) (do_hash cr w)).
Proof.
  intros IH. fr_of IH. split; [lia|]. intros d B l code l' HC Hw. unfold e_digest in HC.
  destruct (c d B l) as [ch l1] eqn:Ech. destruct (add_local T32 l1) as [bl l2] eqn:Ea. destruct (create_call_stack_local (TBuff 32) false true l2) as [[[ro sz] cc] l3] eqn:Ec. injection HC as <- <-.
  assert (Hsz : sz = 32) by (unfold create_call_stack_local in Ec; destruct (add_local T32 l2); injection Ec as _ <- _ _; reflexivity). subst sz.
  ext_of IH Ech X1. destruct (add_ok _ _ _ _ Ea (lext_wf _ _ X1)) as (X2 & Lb & Nb). destruct (reserve_run E L X HX0 _ _ _ _ _ _ _ _ Ec (lext_wf _ _ X2)) as (X3 & Lr & Nr & Hres).
  assert (Y2 : lext l l2) by (eapply lext_trans; eauto). assert (Y3 : lext l l3) by (eapply lext_trans; eauto). split; [exact Y3|].
  intros F r js ls k st sp Q rs Hm HC HL HX HW. rewrite <- !app_assoc.
  pose proof (c_lo _ _ _ _ _ _ _ _ _ _ _ HC) as Hlo. pose proof (c_room _ _ _ _ _ _ _ _ _ _ _ HC) as Hrm. pose proof (c_cap _ _ _ _ _ _ _ _ _ _ _ HC) as Hcp.
  eapply (impl_next1 _ _ _ _ _ _ _ _ _ _ IH Ech F F); [eapply moved_refl; exact HC| |apply lext_refl; exact Hw|auto|eapply ctx_less; [exact HC|lia]|exact Hm|exact HX|lenl|]; [lia|].
  intros v h ls1 st1 sp1 ws HG HM1 Hm1 HLv. cbn [Z.add] in HM1. cbv beta in Hm1.
  destruct (rep_buff _ _ _ _ _ kb eq_refl (g_rep _ _ _ _ _ _ _ _ _ _ _ _ _ HG) (g_type _ _ _ _ _ _ _ _ _ _ _ _ _ HG)) as (bo & bs & -> & -> & Hh1 & _).
  pose proof (ctx_msize _ _ _ _ _ _ _ _ _ _ _ _ _ _ _ HC HM1) as Hmz. pose proof (m_rng _ _ _ _ _ _ _ _ HM1) as Hr1.
  cbn [rev app]. apply wp_ltee.
  assert (HM1' : moved l ls st sp fr (lset ls1 bl (VI32 (Z.of_nat (length bs)))) st1 sp1) by (eapply moved_ls'; [exact HM1|exact X1|apply lkeep_lset; exact Nb]).
  assert (HC2 : ctx G B r F l2 (lset ls1 bl (VI32 (Z.of_nat (length bs)))) st1 sp1 32) by (eapply ctx_moved; [exact HC|exact Y2|exact HM1'|lia]).
  rewrite <- app_assoc. eapply Hres; [exact HC2|lia|lenl|]. intros ls2 st2 Hh2 Hmem2 HM2 Hol HC3.
  assert (HM2' : moved l ls st sp (fr + 32) ls2 st2 (sp1 + 32)) by (eapply moved_trans; [exact Y2|exact HM1'|exact HM2]).
  eapply wp_lget; [exact Hol|]. apply wp_const. change (32 mod m32) with 32.
  destruct (digest_called w bs bo sp1 st2) as (A1 & A2); rewrite ?Hmem2; auto; try lia.
  change (VI32 32 :: VI32 sp1 :: VI32 (Z.of_nat (length bs)) :: VI32 bo :: k) with (rev [VI32 bo; VI32 (Z.of_nat (length bs)); VI32 sp1; VI32 32] ++ k).
  eapply wp_call_all; [exact A1|reflexivity|]. eapply wpf_mono; [exact A2|]. intros res (m' & -> & Hoc & Hhd). unfold qcall. cbn [ret_call cont].
  unfold do_hash in Hm1. cbn [hashed] in Hm1. injection Hm1 as <-. destruct (proj2 (proj2 Hcr) w bs) as (D1 & D2).
  eapply (HW (CBuff (cr_hash cr w bs)) _ ls2 (with_mem st2 m') (sp1 + 32) [VI32 sp1; VI32 32] eq_refl).
  constructor; [eapply moved_write; [exact HM2'|exact Hoc|lia]| | |cbn [shost with_mem]; rewrite Hh2; reflexivity]; cbn [smem with_mem rep has_type].
  - exists sp1. rewrite D1. split; [reflexivity|]. change m32 with (2 ^ 32). split; [lia|]. split; [lia|]. split; [exact Hhd|]. intros x Hx. split; [lia|]. eapply c_up; [exact HC|lia].
  - rewrite D1. split; [cbn; lia|exact D2].
Qed.
Lemma hash_ok w G t fr (c : frag) (m : venv -> M HS value) : t = TInt \/ t = TUInt \/ is_buff t = true -> impl G t fr c m ->
  impl G (TBuff 32) (fr + bytes_room t + 32) (e_digest w (e_bytes t c)) (fun r => bind (m r) (do_hash cr w)).
Proof.
  intros Ht IH. pose proof (bytes_ok _ _ _ _ _ Ht IH) as H1. assert (Hb : exists kb, bytes_ty t = TBuff kb).
  { unfold bytes_ty. destruct t; cbn [is_buff]; eauto. } destruct Hb as (kb & Hb). rewrite Hb in H1. apply (digest_ok w) in H1. eapply impl_same; [|exact H1].
  intros r h. unfold bind. destruct (m r h) as [[v h'|v h'|e]|]; auto. unfold do_bytes, do_hash. destruct (hashed v) as [bs|] eqn:Hh; reflexivity.
Qed.
End Words.
