(** * Proofs about contract names, principal construction, ASCII validation. *)
From Coq Require Import ZArith String List Bool Lia.
Import ListNotations.
From Verif Require Import Wasm Std StdEnv WasmLogic WasmTac Spec SpecBytes ZBits Mem MemFacts ArithProofs.
Open Scope string_scope.
Open Scope list_scope.
Open Scope Z_scope.

(** a decidable fact about bytes is settled by its 256 instances *)
Definition all_bytes : list Z := map Z.of_nat (seq 0 256).
Lemma byte_cases (P : Z -> bool) : forallb P all_bytes = true -> forall c, 0 <= c < 256 -> P c = true.
Proof.
  intros H c Hc. rewrite forallb_forall in H. apply H. unfold all_bytes.
  rewrite in_map_iff. exists (Z.to_nat c). split; [lia|]. apply in_seq. lia.
Qed.

Lemma alpha_byte c : 0 <= c < 256 -> (Z.land ((Z.land c 223 - 65) mod m32) 255 <? 26) = is_letter c.
Proof.
  intros H. apply eqb_prop. revert c H.
  apply (byte_cases (fun c => eqb (Z.land ((Z.land c 223 - 65) mod m32) 255 <? 26) (is_letter c))). vm_compute. reflexivity.
Qed.

Section Names.
Context {HS : Type} (E : env HS) (HE : has_std E).
Implicit Types (st : store HS) (R : result HS -> Prop).
Ltac wfin := unfold qcall, qblock, qfunc; wcbn.

Lemma is_alpha_wp c st R : 0 <= c < 256 ->
  R (RVals [VI32 (b2z (is_letter c))] st) -> wpf E "stdlib.is-alpha" [VI32 c] st R.
Proof.
  intros Hc HR. wenter HE. wpure. wnil. rewrite alpha_byte by auto. exact HR.
Qed.

Lemma b2z_and a b : Z.land (b2z a) (b2z b) = b2z (a && b).
Proof. destruct a, b; reflexivity. Qed.
Lemma b2z_or a b : Z.lor (b2z a) (b2z b) = b2z (a || b).
Proof. destruct a, b; reflexivity. Qed.

Lemma is_valid_char_wp c st R : 0 <= c < 256 ->
  R (RVals [VI32 (b2z (is_name_char c))] st) -> wpf E "stdlib.is-valid-char" [VI32 c] st R.
Proof.
  intros Hc HR. wenter HE. wpure. wcall HE. apply is_alpha_wp; [auto|]. wfin. wpure. wnil.
  rewrite !b2z_and, !b2z_or. rconv HR. unfold is_name_char, is_digit.
  destruct (is_letter c), (48 <=? c), (c <=? 57), (c =? 45), (c =? 95); reflexivity.
Qed.

Lemma transient_bytes m a : 
  (Z.land (ldn m a 16) 309485009821345068724781055 =? 140756726108102451019407199) = true <-> bytes_at m a 11 = transient.
Proof.
  replace (Z.land (ldn m a 16) 309485009821345068724781055) with (ldn m a 11).
  2:{ change 309485009821345068724781055 with (Z.ones 88). rewrite Z.land_ones by lia.
      change 16%nat with (11 + 5)%nat. rewrite ldn_app. change (2 ^ 88) with (256 ^ 11).
      pose proof (ldn_bound m a 11). change (Z.of_nat 11) with 11 in *. rewrite (Z.mul_comm (256 ^ 11)), Z.mod_add by lia.
      rewrite Z.mod_small; lia. }
  rewrite ldn_le. change 140756726108102451019407199 with (le_val transient). split.
  - intros H. apply Z.eqb_eq in H. 
    assert (HI : forall xs ys, Forall (fun b => 0 <= b < 256) xs -> Forall (fun b => 0 <= b < 256) ys -> length xs = length ys -> le_val xs = le_val ys -> xs = ys).
    { clear. induction xs as [|x xs IH]; intros [|y ys] Hx Hy Hl He; try discriminate; [reflexivity|].
      inversion Hx; inversion Hy; subst. cbn [le_val] in He. cbn [length] in Hl.
      assert (x = y) by lia. subst. f_equal. apply IH; auto; lia. }
    apply HI; auto using bytes_at_byte. repeat constructor; lia.
  - intros ->. apply Z.eqb_refl.
Qed.

Definition nameb (s : list Z) : bool :=
  match s with [] => false | c :: r => is_letter c && forallb is_name_char r end.
Definition eqb_transient (s : list Z) : bool := if list_eq_dec Z.eq_dec s transient then true else false.

Lemma is_transient_wp a s st R : holds (smem st) a s -> (length s = 11%nat -> a + 16 <= msize (smem st)) ->
  R (RVals [VI32 (b2z (eqb_transient s))] st) -> wpf E "stdlib.is-transient" [VI32 a; vlen s] st R.
Proof.
  intros H H16 HR. unfold vlen. wenter HE. wpure. wif Hl.
  - wpure. wnil. wnil. unfold eqb_transient in HR.
    destruct (list_eq_dec Z.eq_dec s transient) as [->|]; [discriminate Hl|]. exact HR.
  - assert (Hl' : length s = 11%nat) by lia. specialize (H16 Hl').
    wpure. apply wp_load; [cbn; lia|]. wpure. wnil. wnil. rewrite b2z_eq0, Z.add_0_r. cbn [ldbytes].
    rconv HR. unfold eqb_transient. destruct H as (_ & _ & H). rewrite Hl' in H. rewrite negb_involutive.
    pose proof (transient_bytes (smem st) a) as T. rewrite H in T.
    destruct (list_eq_dec Z.eq_dec s transient) as [Hs|Hs].
    + apply T in Hs. apply Z.eqb_eq in Hs. rewrite Hs, Z.lxor_nilpotent. reflexivity.
    + symmetry. apply Z.eqb_neq. intros Hx. apply Z.lxor_eq in Hx. apply Hs, T, Z.eqb_eq, Hx.
Qed.

Lemma is_valid_contract_name_wp a s st R : holds (smem st) a s -> (length s = 11%nat -> a + 16 <= msize (smem st)) ->
  R (RVals [VI32 (b2z (eqb_transient s || nameb s))] st) -> wpf E "stdlib.is-valid-contract-name" [VI32 a; vlen s] st R.
Proof.
  intros H H16 HR. unfold vlen. wenter HE. wpure. wif Hl.
  { destruct s; [|cbn in Hl; lia]. wpure. wret. exact HR. }
  wnil. destruct s as [|c r]; [discriminate|]. pose proof (holds_cons _ _ _ _ H) as (Hc1 & Hc2 & Ha & Hb & Hb32 & Hr).
  wpure. apply wp_load; [cbn; lia|]. cbn [ldbytes ldval]. rewrite ldn1, Z.add_0_r, Hc1.
  wcall HE. apply is_alpha_wp; [auto|]. wfin. wpure. rewrite b2z_eq0. wif Hal.
  { apply negb_true_iff in Hal. wpure. wcall HE. apply (is_transient_wp a (c :: r)); auto. wfin.
    cbn [nameb] in HR. rewrite Hal in HR. cbn [andb] in HR. rewrite orb_false_r in HR.
    wif Ht; [wpure; wret|wnil; wpure; wret]; rewrite Ht in HR; exact HR. }
  apply negb_false_iff in Hal. wnil. wpure.
  assert (HR' : R (RVals [VI32 (b2z (forallb is_name_char r))] st)).
  { rconv HR. cbn [nameb]. rewrite Hal. unfold eqb_transient. destruct (list_eq_dec _ _ _) as [He|]; [|reflexivity].
    unfold transient in He. injection He as -> _. discriminate. }
  clear HR. set (e := a + Z.of_nat (length (c :: r))) in *.
  assert (He : e <= m32 /\ e = a + 1 + Z.of_nat (length r)).
  { subst e. cbn [length]. rewrite Nat2Z.inj_succ. destruct H as (_ & H & _). cbn [length] in H. rewrite Nat2Z.inj_succ in H. lia. }
  eapply wp_loop0 with (z := Z.of_nat (length r))
    (I := fun z s' => exists r' a', s' = mkcfg [VI32 (a' mod m32); vlen (c :: r); VI32 (e mod m32)] [] st /\
       z = Z.of_nat (length r') /\ holds (smem st) a' r' /\ a' + z = e /\ 1 <= a' /\
       forallb is_name_char r = forallb is_name_char r').
  { lia. }
  { exists r, (a + 1). split; [reflexivity|]. split; [reflexivity|]. split; [auto|]. split; [lia|]. split; [lia|reflexivity]. }
  clear H16 H Hl. intros z ls st' Hz (r' & a' & Hs & Hz2 & H' & Hae & Ha1 & Hf). injection Hs as -> ->.
  assert (Ha' : 0 <= a') by apply H'.
  wpure. destruct r' as [|x r'].
  - cbn [length] in Hz2. replace a' with e by lia. rewrite Z.eqb_refl. wif Hc; [|discriminate]. wpure. wret.
    rewrite Hf in HR'. exact HR'.
  - cbn [length] in Hz2. rewrite Nat2Z.inj_succ in Hz2. apply holds_cons in H' as (Hx1 & Hx2 & _ & Hx4 & Hx5 & Hx).
    replace (a' mod m32 =? e mod m32) with false.
    2:{ symmetry. apply Z.eqb_neq. rewrite (Z.mod_small a') by lia. destruct (Z.eq_dec e m32) as [->|]; [change (m32 mod m32) with 0|rewrite Z.mod_small by lia]; lia. }
    wif Hc; [discriminate|]. wnil. wpure. rewrite (Z.mod_small a') by lia. apply wp_load; [cbn; lia|].
    cbn [ldbytes ldval]. rewrite ldn1, Z.add_0_r, Hx1.
    wcall HE. apply is_valid_char_wp; [auto|]. wfin. wpure. rewrite b2z_eq0.
    cbn [forallb] in Hf. wif Hx'.
    + apply negb_true_iff in Hx'. rewrite Hx' in Hf. wpure. wret. rewrite Hf in HR'. exact HR'.
    + apply negb_false_iff in Hx'. rewrite Hx' in Hf. wnil. wpure. wbr.
      exists (Z.of_nat (length r')). split; [lia|]. exists r', (a' + 1).
      split; [reflexivity|]. split; [reflexivity|]. split; [auto|]. split; [lia|]. split; [lia|]. exact Hf.
Qed.

(** the host tells whether the chain is mainnet (linker.rs link_is_in_mainnet_fn) *)
Definition host_mainnet (b : bool) : Prop :=
  efun E "stdlib.is_in_mainnet" = None /\
  exists h, ehost E "stdlib.is_in_mainnet" = Some ([], h) /\ forall args st, h args st = RVals (vbool b) st.

Definition version_ok (main : bool) (v : Z) : bool :=
  if main then (v =? 20) || (v =? 22) else (v =? 21) || (v =? 26).

Lemma is_version_valid_wp main v st R : host_mainnet main ->
  R (RVals [VI32 (b2z (version_ok main v))] st) -> wpf E "stdlib.is-version-valid" [VI32 v] st R.
Proof.
  intros (H1 & h & H2 & H3) HR. wenter HE.
  eapply wp_call; [unfold fun_arity; rewrite H1, H2; reflexivity|]. cbn [firstn rev app cstack skipn clocals cstore length].
  eapply wpf_host; [exact H1|exact H2|]. rewrite H3. wfin. change (VI32 (if main then 1 else 0)) with (VI32 (b2z main)).
  wif Hm; wpure; wnil; wnil; rewrite b2z_or; subst main; exact HR.
Qed.

Definition cerr (code : Z) : list val := [VI32 0; VI32 0; VI32 0; VI64 code; VI64 0; VI32 0; VI32 0; VI32 0].
Definition cok (ro n : Z) : list val := [VI32 1; VI32 ro; VI32 n; VI64 0; VI64 0; VI32 0; VI32 0; VI32 0].
Definition cver (ro n : Z) : list val := [VI32 0; VI32 0; VI32 0; VI64 0; VI64 0; VI32 1; VI32 ro; VI32 n].
Definition bad_input (v h : list Z) : bool :=
  match v with [] => true | b :: _ => (32 <=? b) || (Z.of_nat (length h) <? 20) end.

Lemma principal_construct_wp main va v ha h (pr : bool) na nm ro st R :
  host_mainnet main ->
  holds (smem st) va v -> holds (smem st) ha h -> (length h <= 20)%nat -> holds (smem st) na nm -> (length nm <= 128)%nat ->
  (pr = false -> nm = []) -> (length nm = 11%nat -> na + 16 <= msize (smem st)) ->
  0 <= ro -> ro + 22 + Z.of_nat (length nm) <= msize (smem st) ->
  h = [] \/ ha + Z.of_nat (length h) <= ro \/ ro + 22 <= ha ->
  nm = [] \/ na + Z.of_nat (length nm) <= ro \/ ro + 22 <= na ->
  (bad_input v h = true -> R (RVals (cerr 1) st)) ->
  (bad_input v h = false -> pr = true -> eqb_transient nm || nameb nm = false ->
     forall m', only_changes (smem st) m' ro 22 -> R (RVals (cerr 2) (with_mem st m'))) ->
  (bad_input v h = false -> (pr = true -> eqb_transient nm || nameb nm = true) ->
     forall m', only_changes (smem st) m' ro (22 + Z.of_nat (length nm)) ->
       bytes_at m' ro (22 + length nm) = hd 0 v :: h ++ Z.of_nat (length nm) :: nm ->
       R (RVals (if version_ok main (hd 0 v) then cok ro (22 + Z.of_nat (length nm)) else cver ro (22 + Z.of_nat (length nm))) (with_mem st m'))) ->
  wpf E "stdlib.principal-construct" [VI32 va; vlen v; VI32 ha; vlen h; VI32 (b2z pr); VI32 na; vlen nm; VI32 ro] st R.
Proof.
  intros HM HV HH Hh HN Hnl Hpr H16 Hro Hroom Hd1 Hd2 R1 R2 R3. unfold vlen. wenter HE. wpure. wif Hl.
  { destruct v; [|cbn in Hl; lia]. wpure. wret. apply R1. reflexivity. }
  wnil. destruct v as [|b v]; [discriminate|]. clear Hl.
  apply holds_cons in HV as (Hb1 & Hb2 & Hb3 & Hb4 & _ & _).
  wpure. apply wp_load; [cbn; lia|]. cbn [ldbytes ldval]. rewrite ldn1, Z.add_0_r, Hb1. wpure. cbn [bad_input hd] in *.
  wif Hb32.
  { wpure. wret. apply R1. rewrite Hb32. reflexivity. }
  wnil. wpure. wcall HE. eapply (is_version_valid_wp main); [exact HM|]. wfin. wpure.
  wif Hhl.
  { wpure. wret. apply R1. rewrite Hhl. apply orb_true_r. }
  wnil. rewrite Hb32, Hhl in *. clear R1. specialize (R2 eq_refl). specialize (R3 eq_refl).
  assert (Hh20 : length h = 20%nat) by lia. clear Hhl Hh. destruct Hd1 as [->|Hd1]; [discriminate Hh20|]. pose proof (holds_len _ _ _ HH) as (Hh1 & Hh2 & Hm32). pose proof (holds_len _ _ _ HN) as (Hn1 & Hn2 & _).
  rewrite Hh20 in *. change (Z.of_nat 20) with 20 in *. set (ln := Z.of_nat (length nm)) in *. assert (Hln : 0 <= ln <= 128) by lia.
  wpure. eapply wp_store; [reflexivity|cbn; lia|]. cbn [stbytes]. rewrite Z.add_0_r. wpure.
  rewrite (Z.mod_small (ro + 1)) by lia.
  apply wp_memcopy; [cbn; lia|cbn; lia|]. wpure. eapply wp_store; [reflexivity|cbn [smem with_mem]; rewrite msize_mcopy, msize_stn; cbn; lia|].
  cbn [stbytes smem]. rewrite !with_mem_twice, !with_mem_mem.
  set (m1 := stn (mcopy _ _ _ _) _ _ _).
  assert (HO : only_changes (smem st) m1 ro 22).
  { subst m1. eapply only_trans; [|eapply only_weaken; [apply only_stn|lia|lia]].
    eapply only_trans; [|eapply only_weaken; [apply only_mcopy|lia|lia]]. eapply only_weaken; [apply only_stn|lia|lia]. }
  assert (HB : bytes_at m1 ro 22 = b :: h ++ [ln]).
  { change 22%nat with (1 + (20 + 1))%nat. rewrite bytes_at_app, (bytes_at_app m1 (ro + Z.of_nat 1)). change (Z.of_nat 1) with 1. change (Z.of_nat 20) with 20.
    change (bytes_at m1 ro 1) with [rd m1 ro]. change (bytes_at m1 (ro + 1 + 20) 1) with [rd m1 (ro + 1 + 20)]. cbn [app]. f_equal.
    - subst m1. rewrite rd_stn_other by lia. rewrite rd_mcopy_other by lia. rewrite rd_stn1_same. apply Z.mod_small. lia.
    - f_equal.
      + subst m1. rewrite bytes_at_stn_other by lia. change 20 with (Z.of_nat 20). rewrite bytes_at_mcopy_same.
        rewrite bytes_at_stn_other by lia. rewrite <- Hh20. apply holds_eq. exact HH.
      + f_equal. replace (ro + 1 + 20) with (ro + 21) by lia. subst m1. rewrite rd_stn1_same. apply Z.mod_small. lia. }
  clearbody m1. assert (Hms : msize m1 = msize (smem st)) by apply HO.
  assert (HN1 : holds m1 na nm).
  { destruct Hd2 as [En|Hd2]; [rewrite En; apply holds_nil; lia|eapply only_holds; [exact HO| |exact HN]; fold ln; lia]. }
  wpure. destruct pr.
  - change (b2z true =? 1) with true. wif Hc; [|discriminate]. wpure. wcall HE.
    apply (is_valid_contract_name_wp na nm); [exact HN1|cbn [smem with_mem]; rewrite Hms; exact H16|]. wfin. wpure. rewrite b2z_eq0.
    wif Hv.
    { apply negb_true_iff in Hv. wpure. wret. apply R2; auto. }
    apply negb_false_iff in Hv. assert (Hln1 : 1 <= ln) by (subst ln; destruct nm; [discriminate Hv|cbn [length]; lia]).
    destruct Hd2 as [->|Hd2]; [discriminate Hv|].
    wnil. wpure. rewrite (Z.mod_small (ro + 22)) by lia. apply wp_memcopy; [cbn [smem with_mem]; lia|cbn [smem with_mem]; lia|].
    wnil. rewrite with_mem_mem, with_mem_twice. set (m2 := mcopy _ _ _ _).
    assert (HO2 : only_changes (smem st) m2 ro (22 + ln)).
    { eapply only_trans; [eapply only_weaken; [exact HO|lia|lia]|]. eapply only_weaken; [apply only_mcopy|lia|lia]. }
    assert (HB2 : bytes_at m2 ro (22 + length nm) = b :: h ++ ln :: nm).
    { rewrite bytes_at_app. change (Z.of_nat 22) with 22. subst m2. rewrite bytes_at_mcopy_other by lia. rewrite HB. cbn [app]. f_equal. rewrite <- app_assoc. cbn [app]. do 2 f_equal.
      subst ln. rewrite bytes_at_mcopy_same. apply holds_eq. exact HN1. }
    specialize (R3 ltac:(auto) m2 HO2 HB2). wpure. rewrite (Z.mod_small (ln + 22)) by lia. rewrite (Z.add_comm ln 22).
    wif Hve; wpure; wnil; wnil; rewrite Hve in R3; exact R3.
  - specialize (Hpr eq_refl). subst nm. change (b2z false =? 1) with false. wif Hc; [discriminate|]. wnil.
    subst ln. cbn [length Z.of_nat] in *. specialize (R3 ltac:(discriminate) m1 ltac:(eapply only_weaken; [exact HO|lia|lia]) HB).
    wpure. change ((0 + 22) mod m32) with 22.
    wif Hve; wpure; wnil; wnil; rewrite Hve in R3; exact R3.
Qed.

(** ** ASCII validation *)
Definition asciib (c : Z) : bool := ((32 <=? c) && (c <=? 126)) || (c =? 9) || (c =? 10) || (c =? 12) || (c =? 13).
Lemma ascii_byte c : 0 <= c < 256 -> ((c - 32) mod m32 <? 95) = ((32 <=? c) && (c <=? 126)).
Proof.
  intros H. destruct (Z.leb_spec 32 c), (Z.leb_spec c 126); cbn [andb]; zlia.
Qed.
Lemma ascii_byte2 c : 0 <= c < 256 ->
  negb (Z.land (13824 / 2 ^ (c mod 32)) (b2z (c <? 14)) =? 0) || ((32 <=? c) && (c <=? 126)) = asciib c.
Proof.
  intros H. apply eqb_prop. revert c H.
  apply (byte_cases (fun c => eqb (negb (Z.land (13824 / 2 ^ (c mod 32)) (b2z (c <? 14)) =? 0) || ((32 <=? c) && (c <=? 126))) (asciib c))).
  vm_compute. reflexivity.
Qed.

Lemma is_valid_string_ascii_wp a s st R : holds (smem st) a s ->
  R (RVals [VI32 (b2z (forallb asciib s))] st) -> wpf E "stdlib.is-valid-string-ascii" [VI32 a; vlen s] st R.
Proof.
  intros H HR. unfold vlen. wenter HE.
  eapply wp_loop0 with (z := Z.of_nat (length s))
    (I := fun z c => exists r a' b l, c = mkcfg [VI32 a'; VI32 z; b; l] [] st /\ z = Z.of_nat (length r) /\
       (r = [] \/ holds (smem st) a' r) /\ forallb asciib s = forallb asciib r).
  { lia. }
  { exists s, a, (VI32 0), (VI32 0). auto. }
  clear a H. intros z ls st' Hz (r & a & b & l & Hs & Hz2 & H & Hf). apply cfg_inj in Hs as (-> & ->).
  wpure. destruct r as [|x r].
  - cbn [length Z.of_nat] in Hz2. subst z. apply wp_if_eqz; intros Hc; [contradiction|]. wnil. wnil. wpure. wnil.
    rewrite Hf in HR. exact HR.
  - destruct H as [H|H]; [discriminate|]. cbn [length] in Hz2. rewrite Nat2Z.inj_succ in Hz2.
    apply holds_cons in H as (Hx1 & Hx2 & Hx3 & Hx4 & Hx5 & Hx). pose proof (holds_len _ _ _ Hx) as (_ & Hx6 & Hx7).
    apply wp_if_eqz; intros Hc; [|lia]. wpure. apply wp_load; [cbn; lia|]. cbn [ldbytes ldval]. rewrite ldn1, Z.add_0_r, Hx1.
    wpure. rewrite ascii_byte by auto. rewrite (Z.mod_small (z - 1)) by lia.
    cbn [forallb] in Hf. rewrite <- (ascii_byte2 x Hx2) in Hf.
    assert (NEXT : asciib x = true -> exists z', 0 <= z' < z /\ exists r' a' b l, 
       mkcfg [VI32 ((a + 1) mod m32); VI32 (z - 1); VI32 x; VI32 z] [] st = mkcfg [VI32 a'; VI32 z'; b; l] [] st /\ z' = Z.of_nat (length r') /\
       (r' = [] \/ holds (smem st) a' r') /\ forallb asciib s = forallb asciib r').
    { intros Hax. exists (z - 1). split; [lia|]. exists r, ((a + 1) mod m32), (VI32 x), (VI32 z). split; [reflexivity|]. split; [lia|].
      split; [destruct r; [auto|right]; cbn [length] in *; rewrite Z.mod_small by lia; exact Hx|].
      rewrite Hf, (ascii_byte2 x Hx2), Hax. reflexivity. }
    wbrif Hp.
    + wpure. rewrite Hp, orb_false_r in Hf. rewrite <- (ascii_byte2 x Hx2), Hp, orb_false_r in NEXT.
      apply wp_brif_eqz; intros Hq.
      * wnil. wnil. wpure. wnil. rewrite Hq in Hf. cbn in Hf. rewrite (proj2 (Z.eqb_neq z 0)) by lia.
        rewrite Hf in HR. exact HR.
      * wfin. apply NEXT. apply negb_true_iff, Z.eqb_neq. exact Hq.
    + wfin. apply NEXT. rewrite <- (ascii_byte2 x Hx2), Hp. apply orb_true_r.
Qed.
End Names.

Lemma nameb_spec s : eqb_transient s || nameb s = true <-> contract_name s.
Proof.
  unfold contract_name, eqb_transient. destruct (list_eq_dec Z.eq_dec s transient) as [->|Hn]; cbn [orb].
  - split; auto.
  - destruct s as [|c r]; cbn [nameb].
    + split; [discriminate|]. intros [H|(c & r & H & _)]; [contradiction|discriminate].
    + rewrite andb_true_iff. split.
      * intros [H1 H2]. right. exists c, r. auto.
      * intros [H|(c' & r' & H & H1 & H2)]; [contradiction|]. injection H as -> ->. auto.
Qed.

Lemma asciib_spec c : asciib c = true <-> clarity_ascii c.
Proof. unfold asciib, clarity_ascii. rewrite !orb_true_iff, andb_true_iff, !Z.leb_le, !Z.eqb_eq. lia. Qed.
