(** * Properties C19 and C20: names, principals and ASCII validation. *)
From Coq Require Import ZArith String List Bool Lia.
Import ListNotations.
From Verif Require Import Wasm Std StdEnv WasmLogic WasmTac Spec SpecBytes Mem MemFacts NameProofs.
Open Scope string_scope.
Open Scope list_scope.
Open Scope Z_scope.

(** ** C19 *)

(** full statement: contract-name validation decides the grammar, reading only the name *)
Definition contract_name_correct {HS} (E : env HS) : Prop := forall a s st,
  holds (smem st) a s ->
  exists r, returns E "stdlib.is-valid-contract-name" [VI32 a; vlen s] st (vbool r) /\ (r = true <-> contract_name s).

(** Proved for every name except 11-byte names ending less than 5 bytes before the end of memory. *)
Theorem C19_contract_name_partial : forall {HS} (E : env HS), has_std E -> forall a s st,
  holds (smem st) a s -> (length s = 11%nat -> a + 16 <= msize (smem st)) ->
  exists r, returns E "stdlib.is-valid-contract-name" [VI32 a; vlen s] st (vbool r) /\ (r = true <-> contract_name s).
Proof.
  intros HS E HE a s st H H16. exists (eqb_transient s || nameb s). split; [|apply nameb_spec].
  apply wpf_calls. apply (is_valid_contract_name_wp E HE); auto.
Qed.
Print Assumptions C19_contract_name_partial.

(** without that restriction the statement is false: the 11-byte comparison with "__transient"
    loads 16 bytes, and traps at the end of memory *)
Definition c19_bad : list Z := [49; 98; 99; 100; 101; 102; 103; 104; 105; 106; 107].
Definition c19_end : store unit :=
  with_mem blank_store (write_bytes (smem blank_store) (65536 - 11) c19_bad).
Theorem C19_contract_name_refuted : ~ contract_name_correct (@std_env unit).
Proof.
  intros H. specialize (H (65536 - 11) c19_bad c19_end).
  assert (HH : holds (smem c19_end) (65536 - 11) c19_bad)
    by (split; [vm_compute; discriminate|split; [split; vm_compute; discriminate|vm_compute; reflexivity]]).
  destruct (H HH) as (r & Hr & _). clear H HH.
  assert (W : calls std_env "stdlib.is-valid-contract-name" [VI32 (65536 - 11); vlen c19_bad] c19_end (RTrap TMem c19_end)).
  { apply (calls_compute _ 60); [vm_compute; reflexivity|discriminate]. }
  pose proof (calls_det _ _ _ _ _ _ Hr W) as C. discriminate C.
Qed.
Print Assumptions C19_contract_name_refuted.

(** address versions of the network the contract runs on: mainnet 20 and 22, testnet 21 and 26 *)
Definition network_version (mainnet : bool) (v : Z) : Prop :=
  if mainnet then v = 20 \/ v = 22 else v = 21 \/ v = 26.
Lemma version_ok_spec main v : version_ok main v = true <-> network_version main v.
Proof. unfold version_ok, network_version. destruct main; rewrite orb_true_iff, !Z.eqb_eq; reflexivity. Qed.

(** the host import answers whether the network is mainnet and changes nothing *)
Definition host_says {HS} (E : env HS) (mainnet : bool) : Prop :=
  efun E "stdlib.is_in_mainnet" = None /\
  exists h, ehost E "stdlib.is_in_mainnet" = Some ([], h) /\ forall args st, h args st = RVals (vbool mainnet) st.

Theorem C19_version : forall {HS} (E : env HS), has_std E -> forall mainnet, host_says E mainnet -> forall v st,
  exists r, returns E "stdlib.is-version-valid" [VI32 v] st (vbool r) /\ (r = true <-> network_version mainnet v).
Proof.
  intros HS E HE main HM v st. exists (version_ok main v). split; [|apply version_ok_spec].
  apply wpf_calls. apply (is_version_valid_wp E HE main); [exact HM|]. reflexivity.
Qed.
Print Assumptions C19_version.

(** Specification of [principal-construct?]: Clarity's result, and the bytes of the principal.
    A standard principal is version byte, 20 hash bytes and a zero length byte; a contract
    principal continues with the name, after its length. *)
Definition principal_bytes (v : Z) (h nm : list Z) : list Z := v :: h ++ Z.of_nat (length nm) :: nm.
Inductive construct : bool -> list Z -> list Z -> option (list Z) -> (Z * option (list Z)) + list Z -> Prop :=
| con_input mn v h nm : v = [] \/ hd 0 v >= 32 \/ (length h < 20)%nat -> construct mn v h nm (inl (1, None))
| con_name mn b h nm : b < 32 -> length h = 20%nat -> ~ contract_name nm ->
    construct mn [b] h (Some nm) (inl (2, None))
| con_version mn b h nm : b < 32 -> length h = 20%nat -> (forall s, nm = Some s -> contract_name s) ->
    ~ network_version mn b ->
    construct mn [b] h nm (inl (0, Some (principal_bytes b h (match nm with Some s => s | None => [] end))))
| con_ok mn b h nm : b < 32 -> length h = 20%nat -> (forall s, nm = Some s -> contract_name s) ->
    network_version mn b ->
    construct mn [b] h nm (inr (principal_bytes b h (match nm with Some s => s | None => [] end))).

(** (response principal {error_code: uint, value: (optional principal)}) on the WASM stack; the
    principal's bytes are at [ro] *)
Definition construct_vals (ro : Z) (r : (Z * option (list Z)) + list Z) : list val :=
  match r with
  | inl (code, None) => VI32 0 :: [VI32 0; VI32 0] ++ u128 code ++ [VI32 0; VI32 0; VI32 0]
  | inl (code, Some p) => VI32 0 :: [VI32 0; VI32 0] ++ u128 code ++ [VI32 1; VI32 ro; vlen p]
  | inr p => VI32 1 :: [VI32 ro; vlen p] ++ u128 0 ++ [VI32 0; VI32 0; VI32 0]
  end.
Definition construct_bytes (r : (Z * option (list Z)) + list Z) : list Z :=
  match r with inl (_, Some p) => p | inr p => p | _ => [] end.
Definition name_bytes (nm : option (list Z)) : list Z := match nm with Some s => s | None => [] end.

(** The answer is the specified one, and only the 22 + |name| result bytes are written.
    Partial: an 11-byte name must end at least 5 bytes before the end of memory. *)
Theorem C19_principal_construct_partial : forall {HS} (E : env HS), has_std E -> forall mainnet, host_says E mainnet ->
  forall va v ha h na nm ro st,
  holds (smem st) va v -> (length v <= 1)%nat ->
  holds (smem st) ha h -> (length h <= 20)%nat ->
  holds (smem st) na (name_bytes nm) -> (length (name_bytes nm) <= 40)%nat ->
  (length (name_bytes nm) = 11%nat -> na + 16 <= msize (smem st)) ->
  0 <= ro -> ro + 22 + Z.of_nat (length (name_bytes nm)) <= msize (smem st) ->
  h = [] \/ ha + Z.of_nat (length h) <= ro \/ ro + 22 <= ha ->
  name_bytes nm = [] \/ na + Z.of_nat (length (name_bytes nm)) <= ro \/ ro + 22 <= na ->
  exists r m', construct mainnet v h nm r /\
    only_changes (smem st) m' ro (22 + Z.of_nat (length (name_bytes nm))) /\
    bytes_at m' ro (length (construct_bytes r)) = construct_bytes r /\
    calls E "stdlib.principal-construct"
      (VI32 va :: vlen v :: VI32 ha :: vlen h :: vbool (if nm then true else false) ++
         [VI32 na; vlen (name_bytes nm); VI32 ro]) st
      (RVals (construct_vals ro r) (with_mem st m')).
Proof.
  intros HS E HE mn HM va v ha h na nm ro st Hv Hv1 Hh Hh20 Hn Hn40 H16 Hro Hroom Hd1 Hd2.
  set (Q := fun res => exists r m', construct mn v h nm r /\
    only_changes (smem st) m' ro (22 + Z.of_nat (length (name_bytes nm))) /\
    bytes_at m' ro (length (construct_bytes r)) = construct_bytes r /\
    res = RVals (construct_vals ro r) (with_mem st m')).
  assert (W : wpf E "stdlib.principal-construct"
      [VI32 va; vlen v; VI32 ha; vlen h; VI32 (b2z (if nm then true else false)); VI32 na; vlen (name_bytes nm); VI32 ro] st Q).
  { assert (Hg : bad_input v h = false -> exists b, v = [b] /\ b < 32 /\ length h = 20%nat).
    { unfold bad_input. destruct v as [|b [|b' v']]; cbn [length] in *; [discriminate| |lia].
      intros Hb. apply orb_false_iff in Hb as [Hb1 Hb2]. exists b. apply Z.leb_gt in Hb1. apply Z.ltb_ge in Hb2.
      split; [auto|split; [lia|]]. lia. }
    apply (principal_construct_wp E HE mn); auto; try lia.
    - destruct nm; [discriminate|reflexivity].
    - intros Hb. exists (inl (1, None)), (smem st). split; [constructor|split; [split; auto|split; [reflexivity|]]].
      + unfold bad_input in Hb. destruct v; [auto|]. apply orb_true_iff in Hb as [Hb|Hb]; [apply Z.leb_le in Hb|apply Z.ltb_lt in Hb]; cbn [hd]; [right; left; lia|right; right; lia].
      + unfold cerr, construct_vals. rewrite with_mem_same. reflexivity.
    - intros Hb Hp Hnm m' Hm'. destruct nm as [nm|]; [|discriminate Hp]. destruct (Hg Hb) as (b & -> & Hb32 & Hh2).
      exists (inl (2, None)), m'. split; [|split; [|split; [reflexivity|reflexivity]]].
      + constructor; auto. rewrite <- nameb_spec. cbn [name_bytes] in Hnm. congruence.
      + eapply only_weaken; [exact Hm'|lia|lia].
    - intros Hb Hp m' Hm' Hbs. destruct (Hg Hb) as (b & -> & Hb32 & Hh2). cbn [hd] in *.
      assert (Hcn : forall s, nm = Some s -> contract_name s).
      { intros s ->. apply nameb_spec. apply Hp. reflexivity. }
      assert (Hlen : length (principal_bytes b h (name_bytes nm)) = (22 + length (name_bytes nm))%nat).
      { unfold principal_bytes. cbn [length]. rewrite app_length. cbn [length]. lia. }
      assert (Hvl : vlen (principal_bytes b h (name_bytes nm)) = VI32 (22 + Z.of_nat (length (name_bytes nm)))).
      { unfold vlen. rewrite Hlen. f_equal. lia. }
      destruct (version_ok mn b) eqn:Ev.
      + exists (inr (principal_bytes b h (name_bytes nm))), m'. split; [|split; [exact Hm'|split]].
        * apply (con_ok mn b h nm); auto. now apply version_ok_spec.
        * cbn [construct_bytes]. rewrite Hlen. exact Hbs.
        * unfold construct_vals. rewrite Hvl. reflexivity.
      + exists (inl (0, Some (principal_bytes b h (name_bytes nm)))), m'. split; [|split; [exact Hm'|split]].
        * apply (con_version mn b h nm); auto. rewrite <- version_ok_spec. congruence.
        * cbn [construct_bytes]. rewrite Hlen. exact Hbs.
        * unfold construct_vals. rewrite Hvl. reflexivity. }
  destruct W as (f0 & res & Hc & r & m' & H1 & H2 & H3 & ->). exists r, m'. split; [exact H1|split; [exact H2|split; [exact H3|]]].
  exists f0. exact Hc.
Qed.
Print Assumptions C19_principal_construct_partial.

(** the specification determines the answer *)
Theorem C19_construct_unique : forall mn v h nm r r', construct mn v h nm r -> construct mn v h nm r' -> r = r'.
Proof.
  intros mn v h nm r r' H K.
  inversion H; subst; inversion K; subst; try reflexivity; try (cbn [hd] in *; exfalso; intuition (try discriminate; try lia); fail);
    exfalso; eauto.
Qed.
Print Assumptions C19_construct_unique.

(** concrete cases: a module with a mainnet host *)
Definition main_env : env unit :=
  mkenv (fun n => assoc n std_funs)
    (fun n => if String.eqb n "stdlib.is_in_mainnet" then Some ([], fun _ st => RVals (vbool true) st) else None) std_table.
Example main_env_std : has_std main_env.
Proof. split; [intros n f H; exact H|reflexivity]. Qed.
Example main_env_host : host_says main_env true.
Proof. split; [reflexivity|]. eexists. split; [reflexivity|]. reflexivity. Qed.
Definition c19_store : store unit :=
  with_mem blank_store (write_bytes (smem blank_store) 3000 (22 :: repeat 7 20 ++ [102; 111; 111])).
Example C19_ex_ok :
  match invoke main_env 60 "stdlib.principal-construct"
    [VI32 3000; VI32 1; VI32 3001; VI32 20; VI32 1; VI32 3021; VI32 3; VI32 4000] c19_store with
  | RVals vs st => (vs, bytes_at (smem st) 4000 25) =
      (construct_vals 4000 (inr (principal_bytes 22 (repeat 7 20) [102; 111; 111])), 22 :: repeat 7 20 ++ [3; 102; 111; 111])
  | _ => False
  end.
Proof. vm_compute. reflexivity. Qed.
Example C19_ex_name1 : contract_name [102; 111; 45; 49].
Proof. right. exists 102, [111; 45; 49]. auto. Qed.
Example C19_ex_name2 : ~ contract_name [49; 102].
Proof. intros [H|(c & r & H & H1 & _)]; [discriminate|]. injection H as <- <-. discriminate H1. Qed.

(** ** C20 *)
Theorem C20_is_valid_string_ascii : forall {HS} (E : env HS), has_std E -> forall a s st,
  holds (smem st) a s ->
  exists r, returns E "stdlib.is-valid-string-ascii" [VI32 a; vlen s] st (vbool r) /\ (r = true <-> Forall clarity_ascii s).
Proof.
  intros HS E HE a s st H. exists (forallb asciib s). split.
  - apply wpf_calls. apply (is_valid_string_ascii_wp E HE); auto.
  - rewrite forallb_forall, Forall_forall. split; intros K x Hx; apply asciib_spec; auto.
Qed.
Print Assumptions C20_is_valid_string_ascii.
Example C20_ex1 : returns std_env "stdlib.is-valid-string-ascii" [VI32 3021; VI32 3] c19_store (vbool true).
Proof. apply (calls_compute _ 60); [vm_compute; reflexivity|discriminate]. Qed.
Example C20_ex2 : returns std_env "stdlib.is-valid-string-ascii" [VI32 3020; VI32 2] c19_store (vbool false).
Proof. apply (calls_compute _ 60); [vm_compute; reflexivity|discriminate]. Qed.
