(** * Block information: host functions and generated code (model and proof support) *)
From Coq Require Import ZArith String List Bool Lia Arith.
Import ListNotations.
From Verif Require Import Wasm Std StdEnv WasmLogic WasmTac Spec Mem MemFacts Bytes SpecBytes SpecUtf8 Clar Codec Rep RepFacts ReadProofs WriteProofs ArgProofs PropCodec Emit EmitFacts EmitProofs
  Ledger LedgerProofs Calls CallProofs PropLedger PropStore Const ConstProofs Ast SpecLang Lang Typing LangFacts LangBase LangCtl LangEarly LangMem LangSeq LangList LangCall LangPrim LangMain SpecChain LangHost Outcall SpecBlocks.
Open Scope string_scope.
Open Scope list_scope.
Open Scope Z_scope.

(** ** The generated code *)
(** words/blockinfo.rs 60-103, 146-170, 261-279, 322-350: the import a property calls; other
    names are refused when the contract is compiled *)
Definition import_of (w : iword) (f : field) : option string :=
  match w, f with
  | WBlock, FTime => Some "stdlib.get_block_info_time_property"
  | WBlock, FHeaderHash => Some "stdlib.get_block_info_header_hash_property"
  | WBlock, FBurnHeaderHash => Some "stdlib.get_block_info_burnchain_header_hash_property"
  | WBlock, FIdHeaderHash => Some "stdlib.get_block_info_identity_header_hash_property"
  | WBlock, FMiner => Some "stdlib.get_block_info_miner_address_property"
  | WBlock, FReward => Some "stdlib.get_block_info_block_reward_property"
  | WBlock, FSpendTotal => Some "stdlib.get_block_info_miner_spend_total_property"
  | WBlock, FSpendWinner => Some "stdlib.get_block_info_miner_spend_winner_property"
  | WBlock, FVrfSeed => Some "stdlib.get_block_info_vrf_seed_property"
  | WBurn, FHeaderHash => Some "stdlib.get_burn_block_info_header_hash_property"
  | WBurn, FPoxAddrs => Some "stdlib.get_burn_block_info_pox_addrs_property"
  | WStacks, FHeaderHash => Some "stdlib.get_stacks_block_info_header_hash_property"
  | WStacks, FIdHeaderHash => Some "stdlib.get_stacks_block_info_identity_header_hash_property"
  | WStacks, FTime => Some "stdlib.get_stacks_block_info_time_property"
  | WTenure, FTime => Some "stdlib.get_tenure_info_time_property"
  | WTenure, FVrfSeed => Some "stdlib.get_tenure_info_vrf_seed_property"
  | WTenure, FBurnHeaderHash => Some "stdlib.get_tenure_info_burnchain_header_hash_property"
  | WTenure, FMiner => Some "stdlib.get_tenure_info_miner_address_property"
  | WTenure, FReward => Some "stdlib.get_tenure_info_block_reward_property"
  | WTenure, FSpendTotal => Some "stdlib.get_tenure_info_miner_spend_total_property"
  | WTenure, FSpendWinner => Some "stdlib.get_tenure_info_miner_spend_winner_property"
  | _, _ => None
  end.
(** words/blockinfo.rs 19-107, 120-178, 226-287, 300-362; [t] is the type of the expression.
    The cost charge is left out. *)
Definition e_block_info (i : string) (t : ty) (h : frag) : frag := fun d B l =>
  let '(ch, l) := h d B l in
  let '(ro, size, cc, l) := create_call_stack_local t true true l in
  (ch ++ cc ++ [LGet ro; Const (VI32 (size mod m32)); Call i] ++ read_from_memory t ro 0, l).

(** ** The host functions *)
(** [none]: the four bytes of [false] (linker.rs 3009-3018, 3030-3039, 3520-3529, 3588-3597) *)
Definition write_none (st : store gctx) (ro : Z) : result gctx := return_value st TBool ro (HOk (CBool false) (shost st)).
(** linker.rs 2998-3043 [check_height_valid] *)
Definition check_height_valid (ci : chain_info) (lo hi : Z) (g : gctx) : option Z :=
  let h := hi * 2 ^ 64 + lo in
  if h <? 2 ^ 32 then if ci_now ci (g_view g) <=? h then None else Some h else None.
(** linker.rs 3050-3561, 3733-4295: those that look back; the property [q] is asked of the
    database and written as an optional of the type [t].  [block-reward] may be absent; the
    other queries always give a value. *)
Definition i_look_back (ci : chain_info) (q : query) (t : ty) (a : list val) (st : store gctx) : result gctx :=
  match a with
  | [VI64 lo; VI64 hi; VI32 ro; VI32 _] =>
      match check_height_valid ci lo hi (shost st) with
      | Some h =>
          match ci_ask ci q h (g_view (shost st)) with
          | Some (Some x) => return_value st (TOpt t) ro (HOk (CSome x) (shost st))
          | Some None => write_none st ro
          | None => host_err st
          end
      | None => write_none st ro
      end
  | _ => RStuck
  end.
(** linker.rs 3565-3729: of the burn chain *)
Definition i_burn (ci : chain_info) (q : query) (t : ty) (a : list val) (st : store gctx) : result gctx :=
  match a with
  | [VI64 lo; VI64 hi; VI32 ro; VI32 _] =>
      let h := hi * 2 ^ 64 + lo in
      if h <? 2 ^ 32 then
        match ci_ask ci q h (g_view (shost st)) with
        | Some (Some x) => return_value st (TOpt t) ro (HOk (CSome x) (shost st))
        | Some None => return_value st (TOpt t) ro (HOk CNone (shost st))
        | None => host_err st
        end
      else write_none st ro
  | _ => RStuck
  end.
(** the linker's table: name, query, type (the length of a hash is that of the data, 32) *)
Definition look_back : list (string * (query * ty)) :=
  [ ("stdlib.get_block_info_time_property", (QTime, TUInt));                          (* 3050 *)
    ("stdlib.get_block_info_vrf_seed_property", (QVrf, TBuff 32));                    (* 3102 *)
    ("stdlib.get_block_info_header_hash_property", (QHeader, TBuff 32));              (* 3161 *)
    ("stdlib.get_block_info_burnchain_header_hash_property", (QBurnHeader, TBuff 32));(* 3220 *)
    ("stdlib.get_block_info_identity_header_hash_property", (QIndexHeader, TBuff 32));(* 3279 *)
    ("stdlib.get_block_info_miner_address_property", (QMiner, TPrin));                (* 3338 *)
    ("stdlib.get_block_info_miner_spend_winner_property", (QSpendWinner, TUInt));     (* 3391 *)
    ("stdlib.get_block_info_miner_spend_total_property", (QSpendTotal, TUInt));       (* 3443 *)
    ("stdlib.get_block_info_block_reward_property", (QReward, TUInt));                (* 3495 *)
    ("stdlib.get_stacks_block_info_time_property", (QTime, TUInt));                   (* 3733 *)
    ("stdlib.get_stacks_block_info_header_hash_property", (QHeader, TBuff 32));       (* 3785 *)
    ("stdlib.get_stacks_block_info_identity_header_hash_property", (QIndexHeader, TBuff 32)); (* 3844 *)
    ("stdlib.get_tenure_info_burnchain_header_hash_property", (QBurnHeader, TBuff 32)); (* 3903 *)
    ("stdlib.get_tenure_info_miner_address_property", (QMiner, TPrin));               (* 3962 *)
    ("stdlib.get_tenure_info_time_property", (QBurnTime, TUInt));                     (* 4015 *)
    ("stdlib.get_tenure_info_vrf_seed_property", (QVrf, TBuff 32));                   (* 4067 *)
    ("stdlib.get_tenure_info_block_reward_property", (QReward, TUInt));               (* 4126 *)
    ("stdlib.get_tenure_info_miner_spend_total_property", (QSpendTotal, TUInt));      (* 4196 *)
    ("stdlib.get_tenure_info_miner_spend_winner_property", (QSpendWinner, TUInt)) ].  (* 4248 *)
Definition burn_tuple : ty := TTuple [("addrs", TList 2 (TTuple [("hashbytes", TBuff 32); ("version", TBuff 1)])); ("payout", TUInt)]. (* 3687-3697 *)
Definition burn_info : list (string * (query * ty)) :=
  [ ("stdlib.get_burn_block_info_header_hash_property", (QBurnHash, TBuff 32));       (* 3565 *)
    ("stdlib.get_burn_block_info_pox_addrs_property", (QPox, burn_tuple)) ].          (* 3640 *)
Definition info_ps : list vt := [T64; T64; T32; T32].
Definition info_host (ci : chain_info) (n : string) : option (list vt * (list val -> store gctx -> result gctx)) :=
  match assoc n look_back with
  | Some (q, t) => Some (info_ps, i_look_back ci q t)
  | None => match assoc n burn_info with Some (q, t) => Some (info_ps, i_burn ci q t) | None => None end
  end.

(** ** What the words do *)
Definition block_info (ci : chain_info) (w : iword) (q : query) (v : value) : M gctx value := fun g =>
  match v with
  | CUInt h =>
      match answer ci w q h (g_view g) with
      | Some (Some x) => Some (Done (CSome x) g)
      | Some None => Some (Done CNone g)
      | None => refuse
      end
  | _ => None
  end.

(** ** The host writes the answer *)
Lemma none_back (st : store gctx) t ro : ty_ok t -> msize (smem st) < 2 ^ 31 -> 0 <= ro -> 0 <= call_stack_size (TOpt t) true true ->
  ro + call_stack_size (TOpt t) true true <= msize (smem st) -> gave st ro (TOpt t) (Done CNone (shost st)) (write_none st ro).
Proof.
  intros Hok Hm H0 Hb H1. pose proof (size_nonneg t) as Hsz. pose proof (size_nonneg (TOpt t)) as Hs1. assert (Hs4 : get_type_size (TOpt t) = 4 + get_type_size t) by reflexivity.
  assert (Hmem : get_type_size (TOpt t) <= call_stack_size (TOpt t) true true).
  { assert (Hok' : ty_ok (TOpt t)) by exact Hok. pose proof (payload_bound (TOpt t) Hok' CNone I) as Hp. pose proof (payload_nonneg (TOpt t) CNone). change (call_stack_size (TOpt t) true true) with (get_type_in_memory_size (TOpt t) true + get_type_size (TOpt t)). lia. }
  assert (Hro : sgn32 ro = ro) by (apply sgn32_small; change (2 ^ 31) with h32 in Hm; lia).
  destruct (write_good TBool (CBool false) (smem st) ro (ro + 4) I I I Hm H0) as (_ & m' & ws & Ew & (S1 & R1) & Hw & Hr); [cbn [get_type_size]; lia|lia|change (max_payload TBool) with 0; lia|left; cbn [get_type_size]; lia|].
  unfold write_none, return_value. change (get_type_size TBool) with 4 in *. rewrite Hro, Ew. cbn [gave].
  cbn [rep] in Hr. subst ws.
  destruct (words_exist m' (clar2wasm_ty (TOpt t)) ro H0) as (ws' & Hty & Hw'); [rewrite words_size_ty; lia|change m32 with (2 * 2 ^ 31); lia|].
  cbn [clar2wasm_ty] in Hty. inversion Hty as [|? w' ? r' W2 R2]; subst.
  assert (E : VI32 0 = w') by (eapply (word_at_det m' ro T32); [cbn; lia|exact W2|exact Hw|exact Hw']). subst w'.
  exists m', (VI32 0 :: r'). split; [reflexivity|]. split.
  { split; [exact S1|]. intros x Hx. apply R1; [lia|cbn [payload]; lia]. }
  split; [exact Hw'|]. split; [|exact I]. cbn [rep]. exists r'. split; [reflexivity|exact R2].
Qed.

Lemma info_run (E : env gctx) ci w f q i st h ro rl rs : good_info ci -> meant w f = Some q -> import_of w f = Some i ->
  efun E i = None -> ehost E i = info_host ci i ->
  0 <= h < 2 ^ 128 -> block_info ci w q (CUInt h) (shost st) = Some rs ->
  msize (smem st) < 2 ^ 31 -> 0 <= ro -> ro + call_stack_size (TOpt (query_ty q)) true true <= msize (smem st) ->
  called E i [VI64 (h mod 2 ^ 64); VI64 (h / 2 ^ 64 mod 2 ^ 64); VI32 ro; VI32 rl] st (gave st ro (TOpt (query_ty q)) rs).
Proof.
  intros (Hnow & Hgood) Hq Hi Hf Hh Hb Hrs Hm H0 H1.
  assert (Hok : ty_ok (TOpt (query_ty q))) by (apply ty_okb_ok; destruct q; reflexivity).
  assert (Hst : storable (TOpt (query_ty q)) = true) by (destruct q; reflexivity).
  pose proof (big_nonneg _ Hok) as Hbig.
  assert (Hhe : h / 2 ^ 64 mod 2 ^ 64 * 2 ^ 64 + h mod 2 ^ 64 = h).
  { rewrite (Z.mod_small (h / 2 ^ 64)); [pose proof (Z.div_mod h (2 ^ 64)); lia|]. split; [apply Z.div_pos; lia|]. apply Z.div_lt_upper_bound; [lia|]. change (2 ^ 64 * 2 ^ 64) with (2 ^ 128). lia. }
  assert (Hp : fun_arity E i = Some 4%nat /\ (forall args, calls E i args st (match info_host ci i with Some (_, k) => k args st | None => RStuck end))).
  { assert (exists k, info_host ci i = Some (info_ps, k)) as (k & Hk) by (destruct w, f; inversion Hi; subst; cbn; eexists; reflexivity).
    split; [unfold fun_arity; rewrite Hf, Hh, Hk; reflexivity|]. intros args. exists 0%nat. intros n _. unfold invoke, call_func. rewrite Hf, Hh, Hk. reflexivity. }
  destruct Hp as (Hp1 & Hp2). split; [exact Hp1|]. eapply calls_wpf; [apply Hp2|].
  (* what the two kinds of host function do *)
  assert (KL : w <> WBurn -> gave st ro (TOpt (query_ty q)) rs (i_look_back ci q (query_ty q) [VI64 (h mod 2 ^ 64); VI64 (h / 2 ^ 64 mod 2 ^ 64); VI32 ro; VI32 rl] st)).
  { intros Hw. cbn [i_look_back]. unfold check_height_valid. rewrite Hhe. unfold block_info, answer in Hrs. pose proof (Hnow (g_view (shost st))) as Hn.
    assert (Hs : in_sight ci w h (g_view (shost st)) = (h <? ci_now ci (g_view (shost st)))) by (destruct w; [reflexivity| | |contradiction]; reflexivity). rewrite Hs in Hrs.
    destruct (Z.ltb_spec h (ci_now ci (g_view (shost st)))) as [Hlt|Hge].
    - destruct (Z.ltb_spec h (2 ^ 32)) as [_|]; [|lia]. destruct (Z.leb_spec (ci_now ci (g_view (shost st))) h) as [|_]; [lia|].
      destruct (ci_ask ci q h (g_view (shost st))) as [[x|]|] eqn:Ha.
      + injection Hrs as <-. apply back_at; auto. apply (Hgood q h _ x ltac:(lia) Ha).
      + injection Hrs as <-. apply none_back; auto.
      + injection Hrs as <-. split; [reflexivity|]. eexists. reflexivity.
    - assert (Hz : match check_height_valid ci (h mod 2 ^ 64) (h / 2 ^ 64 mod 2 ^ 64) (shost st) with Some _ => False | None => True end).
      { unfold check_height_valid. rewrite Hhe. destruct (Z.ltb_spec h (2 ^ 32)); [|exact I]. destruct (Z.leb_spec (ci_now ci (g_view (shost st))) h); [exact I|lia]. }
      unfold check_height_valid in Hz. rewrite Hhe in Hz. destruct (if h <? 2 ^ 32 then _ else _); [contradiction|]. injection Hrs as <-. apply none_back; auto. }
  assert (KB : w = WBurn -> gave st ro (TOpt (query_ty q)) rs (i_burn ci q (query_ty q) [VI64 (h mod 2 ^ 64); VI64 (h / 2 ^ 64 mod 2 ^ 64); VI32 ro; VI32 rl] st)).
  { intros ->. cbn [i_burn]. cbv zeta. rewrite Hhe. unfold block_info, answer, in_sight in Hrs. destruct (Z.ltb_spec h (2 ^ 32)) as [Hlt|Hge].
    - destruct (ci_ask ci q h (g_view (shost st))) as [[x|]|] eqn:Ha; injection Hrs as <-.
      + apply back_at; auto. apply (Hgood q h _ x ltac:(lia) Ha).
      + apply back_at; auto. exact I.
      + split; [reflexivity|]. eexists. reflexivity.
    - injection Hrs as <-. apply none_back; auto. }
  destruct w, f; inversion Hq; subst; inversion Hi; subst; first [exact (KL ltac:(discriminate))|exact (KB eq_refl)].
Qed.

(** ** The compiled word *)
Section Word.
Context (E : env gctx) (ci : chain_info) (w : iword) (f : field) (q : query) (i : string) (Hg : good_info ci) (Hq : meant w f = Some q) (Hi : import_of w f = Some i)
  (Hf : efun E i = None) (Hh : ehost E i = info_host ci i).
Context (rt : ty) (L : list (ty * value * Z)) (X : Z) (HX0 : 0 <= X).
Notation impl := (impl (CH := ledger_chain) E rt L X).
Notation impl_next1 := (impl_next1 (CH := ledger_chain) E rt L X).
Notation impl_fr := (impl_fr (CH := ledger_chain) E rt L X).
Notation impl_ext := (impl_ext (CH := ledger_chain) E rt L X).

Lemma block_info_ok G fr (c : frag) (m : venv -> M gctx value) : impl G TUInt fr c m ->
  impl G (TOpt (query_ty q)) (fr + call_stack_size (TOpt (query_ty q)) true true) (e_block_info i (TOpt (query_ty q)) c) (fun r => bind (m r) (block_info ci w q)).
Proof.
  intros IH. set (t := TOpt (query_ty q)).
  assert (Hok : ty_ok t) by (apply ty_okb_ok; unfold t; destruct q; reflexivity).
  pose proof (impl_fr _ _ _ _ _ IH) as Pf. pose proof (big_nonneg t Hok) as Pb.
  split; [lia|]. intros d B l code l' HC Hw. unfold e_block_info in HC.
  destruct (c d B l) as [ch l1] eqn:Ech. destruct (create_call_stack_local t true true l1) as [[[ro size] cc] l2] eqn:Ec.
  pose proof (f_equal fst HC) as HC1; pose proof (f_equal snd HC) as HC2; cbn [fst snd] in HC1, HC2; clear HC; subst code l'.
  assert (Hsize : size = call_stack_size t true true) by (unfold create_call_stack_local in Ec; destruct (add_local T32 l1); congruence).
  pose proof (impl_ext _ _ _ _ _ _ _ _ _ _ IH Ech Hw) as X1.
  destruct (reserve_run (CH := ledger_chain) E L X HX0 _ _ _ _ _ _ _ _ Ec (lext_wf _ _ X1)) as (X2 & Lr & Nr & Hres).
  assert (Y2 : lext l l2) by (eapply lext_trans; eauto). split; [exact Y2|].
  intros F r js ls k st sp Q rs Hm HC HL HX HW. rewrite <- !app_assoc.
  pose proof (c_lo _ _ _ _ _ _ _ _ _ _ _ HC) as Hlo. pose proof (c_room _ _ _ _ _ _ _ _ _ _ _ HC) as Hrm. pose proof (c_cap _ _ _ _ _ _ _ _ _ _ _ HC) as Hcap. change (chain_cap (HS := gctx)) with (2 ^ 31 - 1) in Hcap.
  assert (N1 : (llen l1 <= length ls)%nat) by (apply lext_len in X2; lia).
  assert (HM0 : moved l ls st sp 0 ls st sp) by (eapply moved_refl; exact HC).
  eapply (impl_next1 _ _ _ _ _ _ _ _ _ _ IH Ech F F); [exact HM0| |apply lext_refl; exact Hw|auto|eapply ctx_less; [exact HC|lia]|exact Hm|exact HX|exact N1|]; [lia|].
  intros v h ls2 st2 sp2 ws HG HM2 Hm2 HLv. cbn [Z.add] in HM2.
  pose proof (g_rep _ _ _ _ _ _ _ _ _ _ _ _ _ HG) as Hrep. pose proof (g_type _ _ _ _ _ _ _ _ _ _ _ _ _ HG) as Hty.
  destruct v as [| hh | | | | | | | | | | | |]; try contradiction. cbn [rep has_type] in Hrep, Hty. subst ws. cbn [rev app].
  assert (HC2 : ctx (CH := ledger_chain) L X G B r F l1 ls2 st2 sp2 (call_stack_size t true true)) by (eapply ctx_moved; [exact HC|exact X1|exact HM2|lia]).
  assert (Hl2 : length ls2 = length ls) by (eapply lkeep_len, m_ls; exact HM2).
  pose proof (ctx_msize (CH := ledger_chain) _ _ _ _ _ _ _ _ _ _ _ _ _ _ _ HC HM2) as Hms. pose proof (m_rng _ _ _ _ _ _ _ _ HM2) as Hr2.
  eapply Hres; [exact HC2|subst size; lia|lia|]. intros ls3 st3 Hh3 Hmem3 HM3 Ho3 HC3. subst size.
  cbn [app]. eapply wp_lget; [exact Ho3|]. apply wp_const.
  assert (HM4 : moved l ls st sp (fr + call_stack_size t true true) ls3 st3 (sp2 + call_stack_size t true true)) by (eapply moved_trans; [exact X1|exact HM2|exact HM3]).
  set (big := call_stack_size t true true) in *.
  eapply (call_gave E rt _ [VI64 (hh mod 2 ^ 64); VI64 (hh / 2 ^ 64 mod 2 ^ 64); VI32 sp2; VI32 (big mod m32)] t st3 sp2 rs ro l2);
    [|exact HX|exact HM4|lia|exact Y2|exact Ho3|lia|lia|unfold big; lia|eapply c_up; exact HC|exact HW].
  unfold t. eapply (info_run E ci w f q i); eauto.
  - rewrite Hh3. exact Hm2.
  - rewrite Hmem3. lia.
  - lia.
  - fold t. fold big. rewrite Hmem3. lia.
Qed.
End Word.
