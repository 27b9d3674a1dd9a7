(** * Passing arguments and reading results *)
From Coq Require Import ZArith String List Bool Lia.
Import ListNotations.
From Verif Require Import Wasm StdEnv WasmTac Spec Mem MemFacts Bytes SpecBytes ConvProofs SpecUtf8 Clar Codec Rep RepFacts ReadProofs WriteProofs.
Open Scope Z_scope.

(** ** Returned values *)
Lemma val32_app ws rest i x : nth_error ws i = Some (VI32 x) -> val32 (ws ++ rest) i = Some (sgn32 x).
Proof. intros H. unfold val32. rewrite nth_error_app1; [rewrite H; reflexivity|]. apply nth_error_Some. congruence. Qed.

Lemma skipn_app_len {A} (a b : list A) n : n = length a -> skipn n (a ++ b) = b.
Proof. intros ->. rewrite skipn_app, skipn_all, Nat.sub_diag. reflexivity. Qed.

Lemma sgn64_mod z : 0 <= z < m64 -> sgn64 z mod 2 ^ 64 = z.
Proof.
  intros H. unfold sgn64. destruct (Z.ltb_spec z h64).
  - apply Z.mod_small. exact H.
  - change m64 with (2 ^ 64) in *. rewrite <- (Z.mod_add _ 1) by lia. replace (z - 2 ^ 64 + 1 * 2 ^ 64) with z by lia. apply Z.mod_small. exact H.
Qed.

Section Ret.
Variables (m : mem) (P : Z -> Prop).
Hypothesis Hm : msize m < h32.

Definition returns_back (t : ty) : Prop := forall v ws rest, rep m P t v ws -> has_type t v ->
  wasm_to_clarity_value m t (ws ++ rest) = Some (Some v, length ws).

Lemma ret_bytes bs ws rest : rep_bytes m P bs ws ->
  exists o, val32 (ws ++ rest) 0 = Some o /\ val32 (ws ++ rest) 1 = Some (Z.of_nat (length bs)) /\ holds m o bs /\
    hread m o (Z.of_nat (length bs)) = Some bs /\ length ws = 2%nat.
Proof.
  intros (o & -> & Ho & Hl & Hh & Hi). pose proof (holds_len _ _ _ Hh) as HL. exists o.
  split; [unfold val32; cbn [app nth_error]; rewrite sgn32_small by lia; reflexivity|].
  split; [unfold val32; cbn [app nth_error]; rewrite sgn32_small by lia; reflexivity|].
  split; [exact Hh|]. split; [apply hread_holds, Hh|reflexivity].
Qed.

Lemma ret_principal t o p vals : t = TPrin \/ (exists i, t = TTrait i) -> prin_ok p -> holds m o (prin_bytes p) ->
  val32 vals 0 = Some o -> wasm_to_clarity_value m t vals = Some (Some (wrap_prin t p), 2%nat).
Proof.
  intros Ht Hp H Hv0. destruct (prin_holds _ _ _ Hp H) as (v & h & n & Hv & Hl & H1 & H2 & H3 & H4 & H5 & Hc).
  assert (E : wasm_to_clarity_value m t vals =
      do o <- val32 vals 0;
      do vh <- hread m o 21;
      do l <- hread m (o + 21) 1;
      do std <- standard_principal (nth 0 vh 0) (skipn 1 vh);
      let n := nth 0 l 0 in
      if n =? 0 then Some (Some (CPrin (PStd (fst std) (snd std))), 2%nat)
      else
        do nm <- hread m (o + 22) n;
        if is_contract_name nm then
          Some (Some (match t with
                      | TTrait i => CCallable (PCon (fst std) (snd std) nm) i
                      | _ => CPrin (PCon (fst std) (snd std) nm)
                      end), 2%nat)
        else None) by (destruct Ht as [->|(i & ->)]; reflexivity).
  rewrite E, Hv0. clear E.
  rewrite (hread_holds' m o (v :: h) 21 H3) by (cbn [length]; rewrite Hl; reflexivity).
  rewrite (hread_holds' m (o + 21) _ 1 H4 eq_refl). cbn [nth skipn]. rewrite (standard_ok v h Hv). cbn [fst snd].
  destruct Hc as [(-> & ->)|(Hne & Hn & Hn' & ->)].
  - cbn [length Z.of_nat Z.eqb]. destruct Ht as [->|(i & ->)]; reflexivity.
  - destruct n as [|c r]; [congruence|].
    destruct (Z.eqb_spec (Z.of_nat (length (c :: r))) 0) as [E|_]; [cbn [length] in E; lia|].
    rewrite (hread_holds m (o + 22) _ H5), (is_contract_name_ok _ Hn Hn'). destruct Ht as [->|(i & ->)]; reflexivity.
Qed.

Lemma ret_back t : ty_ok t -> returns_back t.
Proof.
  induction t using ty_ind'; intros Hok v ws rest Hr Ht; destruct v; try (cbn [rep has_type] in Hr, Ht; contradiction).
  - (* int *) cbn [rep has_type] in Hr, Ht. subst ws. cbn [wasm_to_clarity_value]. unfold val64. cbn [app nth_error length].
    pose proof (mod64_range z). pose proof (mod64_range (z / 2 ^ 64)). rewrite sgn64_mod by auto.
    do 2 f_equal. f_equal. f_equal.
    assert (Hhi : sgn64 (z / 2 ^ 64 mod 2 ^ 64) = z / 2 ^ 64).
    { assert (Hb : - 2 ^ 63 <= z / 2 ^ 64 < 2 ^ 63).
      { split; [apply Z.div_le_lower_bound; lia|apply Z.div_lt_upper_bound; lia]. }
      unfold sgn64. change h64 with (2 ^ 63). change m64 with (2 ^ 64).
      destruct (Z_lt_ge_dec (z / 2 ^ 64) 0).
      - rewrite <- (Z.mod_add _ 1) by lia. rewrite Z.mod_small by lia. destruct (Z.ltb_spec (z / 2 ^ 64 + 1 * 2 ^ 64) (2 ^ 63)); lia.
      - rewrite Z.mod_small by lia. destruct (Z.ltb_spec (z / 2 ^ 64) (2 ^ 63)); lia. }
    rewrite Hhi. pose proof (Z.div_mod z (2 ^ 64)). lia.
  - (* uint *) cbn [rep has_type] in Hr, Ht. subst ws. cbn [wasm_to_clarity_value]. unfold val64. cbn [app nth_error length].
    pose proof (mod64_range z). pose proof (mod64_range (z / 2 ^ 64)). rewrite !sgn64_mod by auto.
    rewrite split128 by exact Ht. reflexivity.
  - (* bool *) cbn [rep] in Hr. subst ws. destruct b; reflexivity.
  - (* principal *) cbn [rep has_type] in Hr, Ht. destruct (ret_bytes _ _ rest Hr) as (o & E0 & _ & Hh & _ & El). rewrite El.
    apply (ret_principal TPrin o p); auto.
  - (* trait *) cbn [rep has_type] in Hr, Ht. destruct Hr as (-> & Hr). destruct Ht as (_ & Ht & (v & h & n & ->)).
    destruct (ret_bytes _ _ rest Hr) as (o & E0 & _ & Hh & _ & El). rewrite El.
    rewrite (ret_principal (TTrait id) o _ _ (or_intror (ex_intro _ _ eq_refl)) Ht Hh E0). reflexivity.
  - (* buff *) cbn [rep has_type ty_ok] in Hr, Ht, Hok. destruct (ret_bytes _ _ rest Hr) as (o & E0 & E1 & _ & Hrd & El).
    cbn [wasm_to_clarity_value]. rewrite E0, E1, Hrd, El. rewrite (buff_from_ok _ n); [reflexivity|apply Ht|apply Hok].
  - (* ascii *) cbn [rep has_type ty_ok] in Hr, Ht, Hok. destruct (ret_bytes _ _ rest Hr) as (o & E0 & E1 & _ & Hrd & El).
    cbn [wasm_to_clarity_value]. rewrite E0, E1, Hrd, El. rewrite (string_ascii_ok _ n); [reflexivity|apply Ht|apply Ht|apply Hok].
  - (* utf8 *) cbn [rep has_type ty_ok] in Hr, Ht, Hok. destruct (ret_bytes _ _ rest Hr) as (o & E0 & E1 & _ & Hrd & El).
    cbn [wasm_to_clarity_value]. rewrite E0, E1, Hrd, El. rewrite (string_utf8_ok _ n); [reflexivity|apply Ht|apply Ht|apply Hok].
  - (* list *) assert (Hws : exists o l, ws = [VI32 o; VI32 l]).
    { pose proof (rep_typed _ _ _ _ _ Hr) as Hty. cbn [clar2wasm_ty] in Hty.
      inversion Hty as [|? ? ? ? Ha Hb]; subst. inversion Hb as [|? ? ? ? Hb1 Hb2]; subst. inversion Hb2; subst.
      destruct y; cbn in Ha; try contradiction. destruct y0; cbn in Hb1; try contradiction. eauto. }
    destruct Hws as (o & l & ->). destruct (read_back m P Hm (TList n t) Hok (CList vs) _ Hr Ht o l eq_refl) as (Ho & Hl & Hread).
    cbn [wasm_to_clarity_value]. unfold val32. cbn [app nth_error]. rewrite !sgn32_small by lia. rewrite Hread. reflexivity.
  - (* none *) cbn [rep] in Hr. destruct Hr as (ws' & -> & Hty). cbn [wasm_to_clarity_value]. unfold val32. cbn [app nth_error].
    rewrite sgn32_small by lia. cbn [Z.eqb]. cbn [length]. rewrite (F2_len _ _ _ Hty). reflexivity.
  - (* some *) cbn [rep has_type ty_ok] in Hr, Ht, Hok. destruct Hr as (ws' & -> & Hr). cbn [wasm_to_clarity_value]. unfold val32. cbn [app nth_error].
    rewrite sgn32_small by lia. cbn [Z.eqb Pos.eqb skipn]. rewrite (IHt Hok v ws' rest Hr Ht). cbn [length]. rewrite (rep_len _ _ _ _ _ Hr). reflexivity.
  - (* ok *) cbn [rep has_type ty_ok] in Hr, Ht, Hok. destruct Hr as (ws1 & ws2 & -> & Hr & Hty). destruct Hok as (Hok & _).
    cbn [wasm_to_clarity_value]. unfold val32. cbn [app nth_error].
    rewrite sgn32_small by lia. cbn [Z.eqb Pos.eqb skipn]. rewrite <- app_assoc. rewrite (IHt1 Hok v ws1 _ Hr Ht).
    cbn [length]. rewrite app_length, (rep_len _ _ _ _ _ Hr), (F2_len _ _ _ Hty). reflexivity.
  - (* err *) cbn [rep has_type ty_ok] in Hr, Ht, Hok. destruct Hr as (ws1 & ws2 & -> & Hty & Hr). destruct Hok as (_ & Hok).
    cbn [wasm_to_clarity_value]. unfold val32. cbn [app nth_error].
    rewrite sgn32_small by lia. cbn [Z.eqb Pos.eqb skipn Nat.add]. rewrite <- app_assoc.
    rewrite (skipn_app_len ws1) by (rewrite (F2_len _ _ _ Hty); reflexivity). rewrite (IHt2 Hok v ws2 _ Hr Ht).
    cbn [length]. rewrite app_length, (rep_len _ _ _ _ _ Hr), (F2_len _ _ _ Hty). reflexivity.
  - (* tuple *) change (rep_fields m P fs fs0 ws) in Hr. change (fields_typed fs fs0) in Ht.
    rewrite ty_ok_tuple in Hok. destruct Hok as (_ & _ & Hok). cbn [wasm_to_clarity_value].
    match goal with |- context [?f fs (ws ++ rest)] => set (go := f) end.
    assert (HG : go fs (ws ++ rest) = Some (fs0, length ws)); [|rewrite HG; reflexivity].
    revert fs0 ws Hr Ht. induction H as [|[k t] fs Hft H IH]; intros vs ws Hr Ht.
    + destruct vs; [|contradiction]. cbn in Hr. subst ws. reflexivity.
    + destruct vs as [|[k' v'] vs]; [contradiction|]. cbn [rep_fields fields_typed fields_ok snd] in *.
      destruct Hr as (ws1 & ws2 & -> & -> & Hr1 & Hr2). destruct Ht as (_ & Ht1 & Ht2). destruct Hok as (Hok1 & Hok2).
      cbn [go]. fold go. rewrite <- app_assoc. rewrite (Hft Hok1 v' ws1 _ Hr1 Ht1).
      rewrite (skipn_app_len ws1) by reflexivity. rewrite (IH Hok2 vs ws2 Hr2 Ht2). rewrite app_length. reflexivity.
Qed.
End Ret.

(** ** Arguments *)

(** bytes an argument takes in the argument area *)
Fixpoint areal (t : ty) (v : value) {struct t} : Z :=
  match t, v with
  | TList _ t, CList vs => Z.of_nat (length vs) * get_type_size t
  | TOpt t, CSome v => areal t v
  | TResp t _, COk v => areal t v
  | TResp _ e, CErr v => areal e v
  | TTuple fs, CTuple vs =>
      (fix go (fs : list (string * ty)) (vs : list (string * value)) {struct fs} : Z :=
         match fs, vs with
         | (_, t) :: fs, (_, v) :: vs => areal t v + go fs vs
         | _, _ => 0
         end) fs vs
  | _, _ => 0
  end.
Definition areals : list (string * ty) -> list (string * value) -> Z :=
  fix go fs vs {struct fs} :=
    match fs, vs with
    | (_, t) :: fs, (_, v) :: vs => areal t v + go fs vs
    | _, _ => 0
    end.
(** no trait reference inside a list: what the host can pass *)
Fixpoint passable (t : ty) : Prop :=
  match t with
  | TList _ t => no_trait t
  | TOpt t => passable t
  | TResp t e => passable t /\ passable e
  | TTuple fs =>
      (fix go (fs : list (string * ty)) : Prop :=
         match fs with [] => True | (_, t) :: fs => passable t /\ go fs end) fs
  | _ => True
  end.
Definition fields_passable : list (string * ty) -> Prop :=
  fix go fs := match fs with [] => True | (_, t) :: fs => passable t /\ go fs end.

Lemma areal_range t : forall v, 0 <= areal t v <= payload t v.
Proof.
  induction t using ty_ind'; intros v; destruct v; cbn [areal payload]; try lia; auto.
  - pose proof (size_nonneg t). fold (pay_list t vs). pose proof (pay_list_nonneg t vs). nia.
  - fold (areals fs fs0) (payloads fs fs0). revert fs0. induction H as [|[k t] fs Ht H IH]; intros vs; cbn [areals payloads]; [lia|].
    destruct vs as [|[k' v] vs]; [lia|]. cbn [snd] in Ht. specialize (Ht v). specialize (IH vs). lia.
Qed.
Lemma areals_range fs : forall vs, 0 <= areals fs vs <= payloads fs vs.
Proof.
  induction fs as [|[k t] fs IH]; intros vs; cbn [areals payloads]; [lia|]. destruct vs as [|[k' v] vs]; [lia|].
  pose proof (areal_range t v). specialize (IH vs). lia.
Qed.
Lemma inmem_nonneg t b : ty_ok t -> 0 <= get_type_in_memory_size t b.
Proof.
  induction t using ty_ind'; cbn [ty_ok get_type_in_memory_size]; intros Hok; try (destruct b; lia).
  - destruct Hok. specialize (IHt H0). pose proof (size_nonneg t). destruct b; nia.
  - specialize (IHt Hok). lia.
  - destruct Hok. specialize (IHt1 H). specialize (IHt2 H0). lia.
  - destruct Hok as (_ & _ & Hok). change (fields_ok fs) in Hok. induction H as [|[k t] fs Hf H IH]; cbn [fold_right snd fields_ok] in *; [lia|].
    destruct Hok as (Ha & Hb). specialize (Hf Ha). specialize (IH Hb). lia.
Qed.
Lemma areal_bound t : ty_ok t -> forall v, has_type t v -> areal t v <= get_type_in_memory_size t false.
Proof.
  induction t using ty_ind'; intros Hok v Ht; pose proof (inmem_nonneg _ false Hok) as Hnn;
    destruct v; try (cbn [has_type] in Ht; contradiction); cbn [areal get_type_in_memory_size has_type ty_ok] in *; try lia.
  - destruct Ht as (Hl & _). pose proof (size_nonneg t). nia.
  - specialize (IHt Hok v Ht). lia.
  - destruct Hok as (Ha & Hb). specialize (IHt1 Ha v Ht). pose proof (inmem_nonneg t2 false Hb). lia.
  - destruct Hok as (Ha & Hb). specialize (IHt2 Hb v Ht). pose proof (inmem_nonneg t1 false Ha). lia.
  - destruct Hok as (_ & _ & Hok). change (fields_ok fs) in Hok. change (fields_typed fs fs0) in Ht. clear Hnn.
    fold (areals fs fs0). revert fs0 Ht. induction H as [|[k t] fs Hf H IH]; intros vs Ht; cbn [fold_right snd fields_ok areals] in *; [lia|].
    destruct vs as [|[k' v] vs]; [contradiction|]. cbn [fields_typed] in Ht. destruct Ht as (_ & Ht1 & Ht2). destruct Hok as (Ha & Hb).
    specialize (Hf Ha v Ht1). specialize (IH Hb vs Ht2). lia.
Qed.

Lemma zeros_typed ts : Forall2 wtyped ts (map zero_of ts).
Proof. induction ts as [|[] ts IH]; cbn [map]; constructor; auto; cbn; lia. Qed.

Definition rng (a n x : Z) : Prop := a <= x < a + n.

Definition passes (t : ty) : Prop := forall v m off ioff,
  has_type t v -> 0 <= off -> off + areal t v <= msize m -> msize m < m32 ->
  0 <= ioff -> ioff + (payload t v - areal t v) <= msize m ->
  off + areal t v <= ioff ->
  exists ws m', pass_argument_to_wasm m t v off ioff = Some (ws, m', off + areal t v, ioff + (payload t v - areal t v)) /\
    only2 m m' off (areal t v) ioff (payload t v - areal t v) /\
    rep m' (fun x => rng off (areal t v) x \/ rng ioff (payload t v - areal t v) x) t v ws.

Lemma w32_small z : 0 <= z < m32 -> w32 z = VI32 z.
Proof. intros H. unfold w32. rewrite Z.mod_small by exact H. reflexivity. Qed.

Lemma passes_bytes m off ioff bs (t : ty) (v : value) : areal t v = 0 -> payload t v = Z.of_nat (length bs) ->
  (pass_argument_to_wasm m t v off ioff =
    do m' <- hwrite m ioff bs; Some ([w32 ioff; w32 (Z.of_nat (length bs))], m', off, ioff + Z.of_nat (length bs))) ->
  (forall m' P ws, rep_bytes m' P bs ws -> rep m' P t v ws) ->
  msize m < m32 -> 0 <= ioff -> ioff + Z.of_nat (length bs) <= msize m ->
  Forall (fun b => 0 <= b < 256) bs ->
  exists ws m', pass_argument_to_wasm m t v off ioff = Some (ws, m', off + areal t v, ioff + (payload t v - areal t v)) /\
    only2 m m' off (areal t v) ioff (payload t v - areal t v) /\
    rep m' (fun x => rng off (areal t v) x \/ rng ioff (payload t v - areal t v) x) t v ws.
Proof.
  intros Ea Ep Ew HR H2 H3 H4 Hb. rewrite Ea, Ep, Ew, hwrite_ok, Z.add_0_r, Z.sub_0_r by lia.
  rewrite !w32_small by lia. eexists _, _. split; [reflexivity|]. split.
  - split; [apply msize_write|]. intros x _ Hx. apply rd_write_other. exact Hx.
  - apply HR. exists ioff. split; [reflexivity|]. split; [lia|]. split; [lia|]. split; [apply holds_write; auto; lia|].
    intros x Hx. right. exact Hx.
Qed.

Definition pass_fields : mem -> list (string * ty) -> list (string * value) -> Z -> Z -> option (list val * mem * Z * Z) :=
  fix go (m : mem) (fs : list (string * ty)) (vs : list (string * value)) (o io : Z) {struct vs}
             : option (list val * mem * Z * Z) :=
             match fs, vs with
             | [], _ => Some ([], m, o, io)
             | (k, t') :: fs, (k', v) :: vs =>
                 if String.eqb k k' then
                   match pass_argument_to_wasm m t' v o io with
                   | Some (ws, m', o', io') =>
                       match go m' fs vs o' io' with
                       | Some (ws', m'', o'', io'') => Some (ws ++ ws', m'', o'', io'')
                       | None => None
                       end
                   | None => None
                   end
                 else None
             | _, _ => None
             end.

Lemma only2_rng m m' a n b k P : only2 m m' a n b k -> (forall x, P x -> (x < a \/ a + n <= x) /\ (x < b \/ b + k <= x)) ->
  forall x, P x -> rd m' x = rd m x.
Proof. intros (_ & H) HP x Hx. destruct (HP x Hx). auto. Qed.

Lemma pass_fields_ok fs : Forall (fun f => passes (snd f)) fs -> forall vs m off ioff,
  fields_typed fs vs -> 0 <= off -> off + areals fs vs <= msize m -> msize m < m32 ->
  0 <= ioff -> ioff + (payloads fs vs - areals fs vs) <= msize m ->
  off + areals fs vs <= ioff ->
  exists ws m', pass_fields m fs vs off ioff = Some (ws, m', off + areals fs vs, ioff + (payloads fs vs - areals fs vs)) /\
    only2 m m' off (areals fs vs) ioff (payloads fs vs - areals fs vs) /\
    rep_fields m' (fun x => rng off (areals fs vs) x \/ rng ioff (payloads fs vs - areals fs vs) x) fs vs ws.
Proof.
  induction 1 as [|[k t] fs HW H IH]; intros vs m o io Ht H0 H1 H2 H3 H4 H5.
  - destruct vs; [|contradiction]. exists [], m. cbn [pass_fields areals payloads]. rewrite Z.sub_0_r, !Z.add_0_r. split; [reflexivity|].
    split; [split; [reflexivity|auto]|reflexivity].
  - destruct vs as [|[k' v] vs]; [contradiction|]. cbn [fields_typed] in Ht. destruct Ht as (<- & Ht1 & Ht2).
    cbn [snd] in HW. cbn [areals payloads] in *.
    pose proof (areal_range t v) as Ha. pose proof (areals_range fs vs) as Has.
    destruct (HW v m o io Ht1 H0 ltac:(lia) H2 H3 ltac:(lia) ltac:(lia)) as (ws & m1 & E1 & (S1 & R1) & Hr1).
    destruct (IH vs m1 (o + areal t v) (io + (payload t v - areal t v)) Ht2 ltac:(lia) ltac:(lia) ltac:(lia) ltac:(lia) ltac:(lia) ltac:(lia))
      as (ws2 & m2 & E2 & (S2 & R2) & Hr2).
    exists (ws ++ ws2), m2. split.
    { cbn [pass_fields]. rewrite String.eqb_refl, E1. fold pass_fields. rewrite E2. do 2 f_equal; [f_equal|]; lia. }
    split.
    { split; [lia|]. intros x Hx Hx'. rewrite R2, R1 by lia. reflexivity. }
    cbn [rep_fields]. exists ws, ws2. split; [reflexivity|]. split; [reflexivity|]. split.
    + eapply (rep_frame m1 m2); [lia| | |exact Hr1]; cbn beta; unfold rng; intros x Hx; [apply R2; lia|lia].
    + match goal with |- rep_fields ?m ?P _ _ _ => assert (Hgoal : rep m P (TTuple fs) (CTuple vs) ws2); [|exact Hgoal] end.
      eapply rep_weaken; [|exact Hr2]. cbn beta. unfold rng. intros x Hx. lia.
Qed.

Lemma fields_passable_forall (Q : ty -> Prop) fs : Forall (fun f => ty_ok (snd f) -> passable (snd f) -> Q (snd f)) fs ->
  fields_ok fs -> fields_passable fs -> Forall (fun f => Q (snd f)) fs.
Proof.
  induction 1 as [|[k t] fs Ht H IH]; intros H1 H2; constructor; cbn [snd fields_ok fields_passable] in *; destruct H1, H2; auto.
Qed.

Lemma w64_eq z : w64 z = VI64 (z mod 2 ^ 64).
Proof. reflexivity. Qed.

Lemma pass_ok t : ty_ok t -> passable t -> passes t.
Proof.
  induction t using ty_ind'; intros Hok Hnt v m off ioff Ht H0 H1 H2 H3 H4 H5; destruct v;
    try (cbn [has_type] in Ht; contradiction).
  - (* int *) exists [w64 z; w64 (z / 2 ^ 64)], m. cbn [areal payload pass_argument_to_wasm]. rewrite Z.sub_0_r, !Z.add_0_r.
    split; [reflexivity|]. split; [split; [reflexivity|auto]|]. cbn [rep]. rewrite !w64_eq. reflexivity.
  - (* uint *) exists [w64 z; w64 (z / 2 ^ 64)], m. cbn [areal payload pass_argument_to_wasm]. rewrite Z.sub_0_r, !Z.add_0_r.
    split; [reflexivity|]. split; [split; [reflexivity|auto]|]. cbn [rep]. rewrite !w64_eq. reflexivity.
  - (* bool *) exists [VI32 (b2z b)], m. cbn [areal payload pass_argument_to_wasm]. rewrite Z.sub_0_r, !Z.add_0_r.
    split; [reflexivity|]. split; [split; [reflexivity|auto]|reflexivity].
  - (* principal *) cbn [has_type] in Ht. pose proof (prin_mem_eq p Ht) as Ep.
    apply (passes_bytes m off ioff (prin_bytes p)); auto; [cbn [pass_argument_to_wasm]; rewrite Ep; reflexivity| |apply prin_bytes_byte; auto].
    cbn [areal payload] in *. lia.
  - (* trait *) cbn [has_type] in Ht. destruct Ht as (-> & Ht & _). pose proof (prin_mem_eq p Ht) as Ep.
    apply (passes_bytes m off ioff (prin_bytes p)); auto; [cbn [pass_argument_to_wasm]; rewrite Ep; reflexivity|cbn [rep]; auto| |apply prin_bytes_byte; auto].
    cbn [areal payload] in *. lia.
  - (* buff *) cbn [has_type] in Ht. apply (passes_bytes m off ioff bs); auto; try apply Ht. cbn [areal payload] in *. lia.
  - (* ascii *) cbn [has_type] in Ht. apply (passes_bytes m off ioff bs); auto. { cbn [areal payload] in *. lia. } apply clarity_ascii_byte, Ht.
  - (* utf8 *) apply (passes_bytes m off ioff (flat_map (be_bytes 4) cs)); auto. { cbn [areal payload] in *. lia. } apply be4s_byte.
  - (* list *) cbn [has_type ty_ok passable] in Ht, Hok, Hnt. destruct Ht as (_ & Ht). destruct Hok as (_ & Hok).
    pose proof (write_ok t Hok Hnt) as HW. cbn [payload areal] in *. fold (pay_list t vs) in *.
    pose proof (pay_list_nonneg t vs) as Hpl. pose proof (size_nonneg t) as Hs.
    assert (Hnn : 0 <= Z.of_nat (length vs) * get_type_size t) by nia. set (L := Z.of_nat (length vs) * get_type_size t) in *.
    replace (L + pay_list t vs - L) with (pay_list t vs) in * by lia.
    destruct (write_elems_ok t HW vs m off ioff Ht H0 ltac:(fold L; lia) H2 H3 ltac:(lia) ltac:(fold L; lia)) as (m1 & E1 & Ho1 & Hr1).
    fold L in E1, Ho1, Hr1. cbn [pass_argument_to_wasm]. fold (write_elems t). rewrite E1.
    rewrite !w32_small by lia. exists [VI32 off; VI32 L], m1. split; [reflexivity|]. split; [exact Ho1|].
    destruct Ho1 as (S1 & _). cbn [rep]. rewrite words_size_ty. fold L. exists off. split; [reflexivity|]. split; [lia|]. split; [lia|]. split; [lia|].
    split; [intros x Hx; left; exact Hx|].
    unfold rep_elems in Hr1. rewrite words_size_ty in Hr1. exact Hr1.
  - (* none *) exists (VI32 0 :: map zero_of (clar2wasm_ty t)), m. cbn [areal payload pass_argument_to_wasm clar2wasm_ty map zero_of].
    rewrite Z.sub_0_r, !Z.add_0_r. split; [reflexivity|]. split; [split; [reflexivity|auto]|]. cbn [rep].
    eexists. split; [reflexivity|apply zeros_typed].
  - (* some *) cbn [has_type ty_ok passable areal payload] in *.
    destruct (IHt Hok Hnt v m off ioff Ht H0 H1 H2 H3 H4 H5) as (ws & m' & E & Ho & Hr). exists (VI32 1 :: ws), m'.
    cbn [pass_argument_to_wasm]. rewrite E. split; [reflexivity|]. split; [exact Ho|]. cbn [rep]. eauto.
  - (* ok *) cbn [has_type ty_ok passable areal payload] in *. destruct Hok, Hnt.
    destruct (IHt1 H H7 v m off ioff Ht H0 H1 H2 H3 H4 H5) as (ws & m' & E & Ho & Hr). eexists _, m'.
    cbn [pass_argument_to_wasm]. rewrite E. split; [reflexivity|]. split; [exact Ho|]. cbn [rep].
    eexists _, _. split; [reflexivity|]. split; [exact Hr|apply zeros_typed].
  - (* err *) cbn [has_type ty_ok passable areal payload] in *. destruct Hok, Hnt.
    destruct (IHt2 H6 H8 v m off ioff Ht H0 H1 H2 H3 H4 H5) as (ws & m' & E & Ho & Hr). eexists _, m'.
    cbn [pass_argument_to_wasm]. rewrite E. split; [reflexivity|]. split; [exact Ho|]. cbn [rep].
    eexists _, _. split; [reflexivity|]. split; [apply zeros_typed|exact Hr].
  - (* tuple *) rewrite ty_ok_tuple in Hok. destruct Hok as (_ & Hnd & Hok). change (fields_passable fs) in Hnt.
    change (fields_typed fs fs0) in Ht. change (payload (TTuple fs) (CTuple fs0)) with (payloads fs fs0) in *.
    change (areal (TTuple fs) (CTuple fs0)) with (areals fs fs0) in *.
    pose proof (fields_passable_forall passes fs H Hok Hnt) as HW.
    exact (pass_fields_ok fs HW fs0 m off ioff Ht H0 H1 H2 H3 H4 H5).
Qed.

(** ** All arguments of a call *)
Definition alist (ts : list ty) (vs : list value) : Z := fold_right (fun p n => areal (fst p) (snd p) + n) 0 (combine ts vs).
Definition plist (ts : list ty) (vs : list value) : Z := fold_right (fun p n => payload (fst p) (snd p) + n) 0 (combine ts vs).

(** the words of the arguments, in order *)
Inductive rep_list (m : mem) (P : Z -> Prop) : list ty -> list value -> list val -> Prop :=
| rl_nil : rep_list m P [] [] []
| rl_cons t ts v vs ws ws' : rep m P t v ws -> rep_list m P ts vs ws' -> rep_list m P (t :: ts) (v :: vs) (ws ++ ws').

Lemma rep_list_frame m m' (P Q : Z -> Prop) ts : msize m' = msize m -> (forall x, P x -> rd m' x = rd m x) -> (forall x, P x -> Q x) ->
  forall vs ws, rep_list m P ts vs ws -> rep_list m' Q ts vs ws.
Proof. intros Hs Ha HPQ vs ws H. induction H; constructor; auto. eapply rep_frame; eauto. Qed.

Lemma alist_range ts : forall vs, 0 <= alist ts vs <= plist ts vs.
Proof.
  induction ts as [|t ts IH]; intros [|v vs]; cbn [alist plist combine fold_right fst snd]; try lia.
  pose proof (areal_range t v). specialize (IH vs). unfold alist, plist in IH. lia.
Qed.
Lemma alist_bound ts : Forall ty_ok ts -> forall vs, Forall2 has_type ts vs -> alist ts vs <= args_repr_size ts.
Proof.
  induction 1 as [|t ts Ht H IH]; intros vs Hv; inversion Hv; subst; [cbn; lia|].
  cbn [alist combine fold_right fst snd args_repr_size]. pose proof (areal_bound t Ht y H2). specialize (IH l' H4).
  unfold alist, args_repr_size in IH. lia.
Qed.

Lemma pass_args_ok ts : Forall ty_ok ts -> Forall passable ts -> forall vs m off ioff,
  Forall2 has_type ts vs -> 0 <= off -> off + alist ts vs <= msize m -> msize m < m32 ->
  0 <= ioff -> ioff + (plist ts vs - alist ts vs) <= msize m ->
  off + alist ts vs <= ioff ->
  exists ws m', pass_args m ts vs off ioff = Some (ws, m', off + alist ts vs, ioff + (plist ts vs - alist ts vs)) /\
    only2 m m' off (alist ts vs) ioff (plist ts vs - alist ts vs) /\
    rep_list m' (fun x => rng off (alist ts vs) x \/ rng ioff (plist ts vs - alist ts vs) x) ts vs ws.
Proof.
  induction 1 as [|t ts Hok Hoks IH]; intros Hp vs m o io Ht H0 H1 H2 H3 H4 H5; inversion Ht as [|? v ? vs' Hv Hvs]; subst.
  - exists [], m. cbn [pass_args alist plist combine fold_right]. rewrite Z.sub_0_r, !Z.add_0_r. split; [reflexivity|].
    split; [split; [reflexivity|auto]|constructor].
  - inversion Hp as [|? ? Hp1 Hp2]; subst. rename vs' into vs.
    cbn [alist plist combine fold_right fst snd] in *. fold (alist ts vs) (plist ts vs) in *.
    pose proof (areal_range t v) as Ha. pose proof (alist_range ts vs) as Has.
    destruct (pass_ok t Hok Hp1 v m o io Hv H0 ltac:(lia) H2 H3 ltac:(lia) ltac:(lia)) as (ws & m1 & E1 & (S1 & R1) & Hr1).
    destruct (IH Hp2 vs m1 (o + areal t v) (io + (payload t v - areal t v)) Hvs ltac:(lia) ltac:(lia) ltac:(lia) ltac:(lia) ltac:(lia) ltac:(lia))
      as (ws2 & m2 & E2 & (S2 & R2) & Hr2).
    exists (ws ++ ws2), m2. split.
    { cbn [pass_args]. rewrite E1, E2. do 2 f_equal; [f_equal|]; lia. }
    split.
    { split; [lia|]. intros x Hx Hx'. rewrite R2, R1 by lia. reflexivity. }
    constructor.
    + eapply (rep_frame m1 m2); [lia| | |exact Hr1]; cbn beta; unfold rng; intros x Hx; [apply R2; lia|lia].
    + eapply rep_list_frame; [reflexivity|reflexivity| |exact Hr2]. cbn beta. unfold rng. intros x Hx. lia.
Qed.
