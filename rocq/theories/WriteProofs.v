(** * The host writer produces represented values *)
From Coq Require Import ZArith String List Bool Lia.
Import ListNotations.
From Verif Require Import Wasm StdEnv WasmTac Spec Mem MemFacts Bytes SpecBytes ConvProofs SpecUtf8 Clar Codec Rep RepFacts ReadProofs.
Open Scope Z_scope.

(** number of bytes a value takes outside its own words *)
Fixpoint payload (t : ty) (v : value) {struct t} : Z :=
  match t, v with
  | TBuff _, CBuff bs | TAscii _, CAscii bs => Z.of_nat (length bs)
  | TUtf8 _, CUtf8 cs => Z.of_nat (length (flat_map (be_bytes 4) cs))
  | TPrin, CPrin p | TTrait _, CCallable p _ => Z.of_nat (length (prin_bytes p))
  | TList _ t, CList vs => Z.of_nat (length vs) * get_type_size t + fold_right (fun v n => payload t v + n) 0 vs
  | TOpt t, CSome v => payload t v
  | TResp t _, COk v => payload t v
  | TResp _ e, CErr v => payload e v
  | TTuple fs, CTuple vs =>
      (fix go (fs : list (string * ty)) (vs : list (string * value)) {struct fs} : Z :=
         match fs, vs with
         | (_, t) :: fs, (_, v) :: vs => payload t v + go fs vs
         | _, _ => 0
         end) fs vs
  | _, _ => 0
  end.
Definition payloads : list (string * ty) -> list (string * value) -> Z :=
  fix go fs vs {struct fs} :=
    match fs, vs with
    | (_, t) :: fs, (_, v) :: vs => payload t v + go fs vs
    | _, _ => 0
    end.

(** no trait reference inside: the values the host can write *)
Fixpoint no_trait (t : ty) : Prop :=
  match t with
  | TTrait _ => False
  | TList _ t | TOpt t => no_trait t
  | TResp t e => no_trait t /\ no_trait e
  | TTuple fs =>
      (fix go (fs : list (string * ty)) : Prop :=
         match fs with [] => True | (_, t) :: fs => no_trait t /\ go fs end) fs
  | _ => True
  end.
Definition fields_no_trait : list (string * ty) -> Prop :=
  fix go fs := match fs with [] => True | (_, t) :: fs => no_trait t /\ go fs end.

Lemma payload_nonneg t : forall v, 0 <= payload t v.
Proof.
  induction t using ty_ind'; intros v; destruct v; cbn [payload]; try lia; auto.
  - pose proof (size_nonneg t). assert (0 <= fold_right (fun v n => payload t v + n) 0 vs).
    { induction vs as [|v vs IH]; cbn [fold_right]; [lia|]. specialize (IHt v). lia. } nia.
  - change (0 <= payloads fs fs0). revert fs0. induction H as [|[k t] fs Ht H IH]; intros vs; cbn [payloads]; [lia|].
    destruct vs as [|[k' v] vs]; [lia|]. cbn [snd] in Ht. specialize (Ht v). specialize (IH vs). lia.
Qed.
Lemma payloads_nonneg fs : forall vs, 0 <= payloads fs vs.
Proof.
  induction fs as [|[k t] fs IH]; intros vs; cbn [payloads]; [lia|]. destruct vs as [|[k' v] vs]; [lia|].
  pose proof (payload_nonneg t v). specialize (IH vs). lia.
Qed.
Definition pay_list (t : ty) (vs : list value) : Z := fold_right (fun v n => payload t v + n) 0 vs.
Lemma pay_list_nonneg t vs : 0 <= pay_list t vs.
Proof. induction vs as [|v vs IH]; cbn; [lia|]. pose proof (payload_nonneg t v). unfold pay_list in IH. lia. Qed.

(** ** [hwrite] *)
Lemma hwrite_ok m off bs : 0 <= off -> off + Z.of_nat (length bs) <= msize m -> hwrite m off bs = Some (write_bytes m off bs).
Proof.
  intros H1 H2. unfold hwrite.
  replace (0 <=? off) with true by (symmetry; apply Z.leb_le; lia).
  replace (off + Z.of_nat (length bs) <=? msize m) with true by (symmetry; apply Z.leb_le; lia). reflexivity.
Qed.
Lemma holds_write m a bs : 0 <= a -> a + Z.of_nat (length bs) <= msize m -> msize m <= m32 -> Forall (fun b => 0 <= b < 256) bs ->
  holds (write_bytes m a bs) a bs.
Proof. intros Ha Hb Hm Hf. split; [exact Ha|]. rewrite msize_write. split; [lia|]. apply bytes_at_write, Hf. Qed.
Lemma rd_write_other m a bs x : x < a \/ a + Z.of_nat (length bs) <= x -> rd (write_bytes m a bs) x = rd m x.
Proof. intros H. destruct (only_write bs m a) as (_ & Hx). apply Hx, H. Qed.

(** memory [m'] agrees with [m] outside the two regions *)
Definition only2 (m m' : mem) (a n b k : Z) : Prop :=
  msize m' = msize m /\ forall x, (x < a \/ a + n <= x) -> (x < b \/ b + k <= x) -> rd m' x = rd m x.

Definition writes (t : ty) : Prop := forall v m off ioff,
  has_type t v -> 0 <= off -> off + get_type_size t <= msize m -> msize m < m32 ->
  0 <= ioff -> ioff + payload t v <= msize m ->
  off + get_type_size t <= ioff \/ ioff + payload t v <= off ->
  exists m' ws, write_to_wasm m t off ioff v true = Some (m', get_type_size t, payload t v) /\
    only2 m m' off (get_type_size t) ioff (payload t v) /\
    words_at m' off ws /\ rep m' (fun x => ioff <= x < ioff + payload t v) t v ws.

Lemma words_exist m ts : forall off, 0 <= off -> off + words_size ts <= msize m -> msize m <= m32 ->
  exists ws, Forall2 wtyped ts ws /\ words_at m off ws.
Proof.
  induction ts as [|t ts IH]; intros off H0 Hs Hm.
  - exists []. split; [constructor|]. apply holds_nil; cbn in Hs; lia.
  - cbn [words_size fold_right] in Hs. fold (words_size ts) in Hs. pose proof (words_size_nonneg ts).
    assert (Hn : exists n : nat, (match t with T32 => 4 | T64 => 8 | T128 => 16 end) = Z.of_nat n /\
       exists w, wtyped t w /\ word_bytes w = le_bytes n (ldn m off n)).
    { destruct t; [exists 4%nat|exists 8%nat|exists 16%nat]; (split; [reflexivity|]);
      [exists (VI32 (ldn m off 4))|exists (VI64 (ldn m off 8))|exists (VV128 (ldn m off 16))]; (split; [|reflexivity]);
      cbn [wtyped]; apply ldn_bound. }
    destruct Hn as (n & En & w & Hw & Ew). rewrite En in Hs.
    destruct (IH (off + Z.of_nat n)) as (ws & H1 & H2); [lia|lia|lia|].
    exists (w :: ws). split; [constructor; auto|]. apply words_at_cons. rewrite Ew, len_le_bytes. split; [|exact H2].
    apply holds_ldn; lia.
Qed.

Lemma be4s_byte cs : Forall (fun b => 0 <= b < 256) (flat_map (be_bytes 4) cs).
Proof. induction cs as [|c cs IH]; cbn [flat_map]; [constructor|]. apply Forall_app. split; [apply be_bytes_byte|exact IH]. Qed.
Lemma clarity_ascii_byte bs : Forall clarity_ascii bs -> Forall (fun b => 0 <= b < 256) bs.
Proof. apply Forall_impl. unfold clarity_ascii. intros. lia. Qed.

Lemma is_letter_byte c : is_letter c = true -> 0 <= c < 256.
Proof. unfold is_letter. rewrite orb_true_iff, !andb_true_iff, !Z.leb_le. lia. Qed.
Lemma is_name_char_byte c : is_name_char c = true -> 0 <= c < 256.
Proof.
  unfold is_name_char, is_digit. rewrite !orb_true_iff, !andb_true_iff, !Z.leb_le, !Z.eqb_eq.
  intros [[[H|H]|H]|H]; [apply is_letter_byte; auto| | |]; lia.
Qed.
Lemma contract_name_byte n : contract_name n -> Forall (fun b => 0 <= b < 256) n.
Proof.
  intros [->|(c & r & -> & H1 & H2)].
  - repeat (constructor; [lia|]). constructor.
  - constructor; [apply is_letter_byte; auto|]. apply Forall_forall. intros x Hx. rewrite forallb_forall in H2.
    apply is_name_char_byte; auto.
Qed.
Lemma prin_mem_eq p : prin_ok p -> prin_mem p = prin_bytes p.
Proof.
  destruct p as [v h|v h n]; cbn [prin_mem prin_bytes prin_ok]; [reflexivity|]. intros (_ & _ & Hn).
  rewrite Z.mod_small by lia. reflexivity.
Qed.
Lemma prin_bytes_byte p : prin_ok p -> Forall (fun b => 0 <= b < 256) (prin_bytes p).
Proof.
  destruct p as [v h|v h n]; cbn [prin_bytes prin_ok].
  - intros (Hv & _ & Hf). constructor; [lia|]. apply Forall_app. split; [exact Hf|]. constructor; [lia|constructor].
  - intros ((Hv & _ & Hf) & Hc & Hn). constructor; [lia|]. apply Forall_app. split; [exact Hf|]. constructor; [lia|].
    apply contract_name_byte, Hc.
Qed.
Lemma prin_bytes_len p : prin_ok p -> (length (prin_bytes p) <= 150)%nat.
Proof.
  destruct p as [v h|v h n]; cbn [prin_bytes prin_ok length].
  - intros (_ & Hl & _). rewrite app_length, Hl. cbn. lia.
  - intros ((_ & Hl & _) & _ & Hn). rewrite app_length, Hl. cbn [length]. lia.
Qed.

(** the contents at [ioff], then the offset and length at [off] *)
Lemma write_bytes_repr m off ioff bs : 0 <= off -> off + 8 <= msize m -> msize m < m32 -> 0 <= ioff ->
  ioff + Z.of_nat (length bs) <= msize m -> off + 8 <= ioff \/ ioff + Z.of_nat (length bs) <= off ->
  Forall (fun b => 0 <= b < 256) bs ->
  exists m', (do m1 <- hwrite m ioff bs; write_repr m1 off ioff (Z.of_nat (length bs)) true) = Some (m', 8) /\
    only2 m m' off 8 ioff (Z.of_nat (length bs)) /\
    words_at m' off [VI32 ioff; VI32 (Z.of_nat (length bs))] /\
    rep_bytes m' (fun x => ioff <= x < ioff + Z.of_nat (length bs)) bs [VI32 ioff; VI32 (Z.of_nat (length bs))].
Proof.
  intros H0 H1 H2 H3 H4 H5 Hb. rewrite hwrite_ok by lia. set (m1 := write_bytes m ioff bs).
  assert (S1 : msize m1 = msize m) by apply msize_write.
  assert (R1 : forall x, (x < ioff \/ ioff + Z.of_nat (length bs) <= x) -> rd m1 x = rd m x) by (intros; apply rd_write_other; auto).
  assert (HB : holds m1 ioff bs) by (apply holds_write; auto; lia).
  unfold write_repr, i32_bytes. rewrite hwrite_ok by (rewrite ?len_le_bytes; lia). set (m2 := write_bytes m1 off _).
  assert (S2 : msize m2 = msize m) by (unfold m2; rewrite msize_write; exact S1).
  assert (R2 : forall x, (x < off \/ off + 4 <= x) -> rd m2 x = rd m1 x).
  { intros. apply rd_write_other. rewrite len_le_bytes. auto. }
  assert (HB2 : holds m2 off (le_bytes 4 ioff)) by (apply holds_write; rewrite ?len_le_bytes; try lia; apply le_bytes_byte).
  rewrite hwrite_ok by (rewrite ?len_le_bytes; lia). set (m3 := write_bytes m2 (off + 4) _).
  assert (S3 : msize m3 = msize m) by (unfold m3; rewrite msize_write; exact S2).
  assert (R3 : forall x, (x < off + 4 \/ off + 8 <= x) -> rd m3 x = rd m2 x).
  { intros. apply rd_write_other. rewrite len_le_bytes. lia. }
  assert (HB3 : holds m3 (off + 4) (le_bytes 4 (Z.of_nat (length bs)))).
  { apply holds_write; rewrite ?len_le_bytes; try lia. apply le_bytes_byte. }
  exists m3. split; [reflexivity|]. split.
  { split; [exact S3|]. intros x Hx Hx'. rewrite R3, R2, R1 by lia. reflexivity. }
  split.
  - apply words_at_two. split; [|exact HB3]. apply (holds_ext m2 m3); [lia| |exact HB2].
    intros x Hx. rewrite len_le_bytes in Hx. apply R3. lia.
  - exists ioff. split; [reflexivity|]. split; [lia|]. split; [lia|]. split; [|intros x Hx; exact Hx].
    apply (holds_ext m1 m3); [lia| |exact HB]. intros x Hx. rewrite R3, R2 by lia. reflexivity.
Qed.

Lemma do_repr m off ioff bs (n : Z) m' : (do m1 <- hwrite m ioff bs; write_repr m1 off ioff n true) = Some (m', 8) ->
  (do m1 <- hwrite m ioff bs; do m2w <- write_repr m1 off ioff n true; Some (fst m2w, snd m2w, n)) = Some (m', 8, n).
Proof. destruct (hwrite m ioff bs); [|discriminate]. intros ->. reflexivity. Qed.

Lemma writes_bytes m off ioff bs (t : ty) (v : value) : get_type_size t = 8 -> payload t v = Z.of_nat (length bs) ->
  (write_to_wasm m t off ioff v true =
    do m1 <- hwrite m ioff bs; do m2w <- write_repr m1 off ioff (Z.of_nat (length bs)) true; Some (fst m2w, snd m2w, Z.of_nat (length bs))) ->
  (forall m' P ws, rep_bytes m' P bs ws -> rep m' P t v ws) ->
  0 <= off -> off + 8 <= msize m -> msize m < m32 -> 0 <= ioff ->
  ioff + Z.of_nat (length bs) <= msize m -> off + 8 <= ioff \/ ioff + Z.of_nat (length bs) <= off ->
  Forall (fun b => 0 <= b < 256) bs ->
  exists m' ws, write_to_wasm m t off ioff v true = Some (m', get_type_size t, payload t v) /\
    only2 m m' off (get_type_size t) ioff (payload t v) /\
    words_at m' off ws /\ rep m' (fun x => ioff <= x < ioff + payload t v) t v ws.
Proof.
  intros Es Ep Ew HR H0 H1 H2 H3 H4 H5 Hb. rewrite Es, Ep, Ew.
  destruct (write_bytes_repr m off ioff bs H0 H1 H2 H3 H4 H5 Hb) as (m' & Hw & Ho & Hwd & Hr).
  exists m', [VI32 ioff; VI32 (Z.of_nat (length bs))]. split; [apply do_repr, Hw|]. split; [exact Ho|]. split; [exact Hwd|].
  apply HR, Hr.
Qed.

Definition write_elems (t' : ty) : mem -> list value -> Z -> Z -> option (mem * Z * Z) :=
  fix go (m : mem) (vs : list value) (vo io : Z) {struct vs} :=
    match vs with
    | [] => Some (m, 0, 0)
    | v :: vs =>
        match write_to_wasm m t' vo io v true with
        | Some (m', w, iw) =>
            match go m' vs (vo + w) (io + iw) with
            | Some (m'', w', iw') => Some (m'', w + w', iw + iw')
            | None => None
            end
        | None => None
        end
    end.

Lemma write_elems_ok t : writes t -> forall vs m vo io,
  Forall (has_type t) vs -> 0 <= vo -> vo + Z.of_nat (length vs) * get_type_size t <= msize m -> msize m < m32 ->
  0 <= io -> io + pay_list t vs <= msize m ->
  vo + Z.of_nat (length vs) * get_type_size t <= io \/ io + pay_list t vs <= vo ->
  exists m', write_elems t m vs vo io = Some (m', Z.of_nat (length vs) * get_type_size t, pay_list t vs) /\
    only2 m m' vo (Z.of_nat (length vs) * get_type_size t) io (pay_list t vs) /\
    rep_elems m' (fun x => vo <= x < vo + Z.of_nat (length vs) * get_type_size t \/ io <= x < io + pay_list t vs) t vs vo.
Proof.
  intros HW. pose proof (size_nonneg t) as Hsz. set (S := get_type_size t) in *.
  induction vs as [|v vs IH]; intros m vo io Ht H0 H1 H2 H3 H4 H5.
  - exists m. split; [reflexivity|]. split; [split; [reflexivity|auto]|exact I].
  - inversion Ht as [|? ? Ht1 Ht2]; subst. cbn [pay_list fold_right] in *. fold (pay_list t vs) in *.
    pose proof (payload_nonneg t v) as Hp. pose proof (pay_list_nonneg t vs) as Hpl.
    replace (Z.of_nat (length (v :: vs)) * S) with (S + Z.of_nat (length vs) * S) in *
      by (cbn [length]; rewrite Nat2Z.inj_succ; lia).
    assert (Hnn : 0 <= Z.of_nat (length vs) * S) by nia. set (L := Z.of_nat (length vs) * S) in *.
    destruct (HW v m vo io Ht1 H0 ltac:(fold S; lia) H2 H3 ltac:(lia) ltac:(fold S; lia)) as (m1 & ws & E1 & (S1 & R1) & Hw1 & Hr1).
    fold S in E1, R1.
    destruct (IH m1 (vo + S) (io + payload t v) Ht2 ltac:(lia) ltac:(lia) ltac:(lia) ltac:(lia) ltac:(lia) ltac:(lia)) as (m2 & E2 & (S2 & R2) & Hr2).
    exists m2. split; [cbn [write_elems]; rewrite E1; fold (write_elems t); rewrite E2; reflexivity|].
    split.
    { split; [lia|]. intros x Hx Hx'. rewrite R2, R1 by lia. reflexivity. }
    cbn [rep_elems]. rewrite words_size_ty. fold S. split.
    + exists ws. split.
      * apply (holds_ext m1 m2); [lia| |exact Hw1]. intros x Hx. fold (words_bytes ws) in Hx.
        rewrite (rep_words_len _ _ _ _ _ Hr1) in Hx. fold S in Hx. apply R2; lia.
      * eapply (rep_frame m1 m2); [lia| | |exact Hr1]; cbn beta; intros x Hx; [apply R2; lia|lia].
    + eapply rep_elems_frame; [reflexivity|reflexivity| | |exact Hr2].
      * cbn beta. intros x Hx. lia.
      * rewrite words_size_ty. intros x Hx. left. lia.
Qed.

Definition write_fields (vs : list (string * value)) : mem -> list (string * ty) -> Z -> Z -> option (mem * Z * Z) :=
  fix go (m : mem) (fs : list (string * ty)) (o io : Z) {struct fs} : option (mem * Z * Z) :=
         match fs with
         | [] => Some (m, 0, 0)
         | (k, t') :: fs =>
             match assoc k vs with
             | Some v =>
                 match write_to_wasm m t' o io v true with
                 | Some (m', w, iw) =>
                     match go m' fs (o + w) (io + iw) with
                     | Some (m'', w', iw') => Some (m'', w + w', iw + iw')
                     | None => None
                     end
                 | None => None
                 end
             | None => None
             end
         end.

Lemma write_fields_ok full fs : Forall (fun f => writes (snd f)) fs -> forall vs m o io,
  (forall k v, In (k, v) vs -> assoc k full = Some v) ->
  fields_typed fs vs -> 0 <= o -> o + fsize fs <= msize m -> msize m < m32 ->
  0 <= io -> io + payloads fs vs <= msize m ->
  o + fsize fs <= io \/ io + payloads fs vs <= o ->
  exists m' ws, write_fields full m fs o io = Some (m', fsize fs, payloads fs vs) /\
    only2 m m' o (fsize fs) io (payloads fs vs) /\
    words_at m' o ws /\ rep_fields m' (fun x => io <= x < io + payloads fs vs) fs vs ws.
Proof.
  induction 1 as [|[k t] fs HW H IH]; intros vs m o io Hin Ht H0 H1 H2 H3 H4 H5.
  - destruct vs; [|contradiction]. exists m, []. split; [reflexivity|]. split; [split; [reflexivity|auto]|].
    split; [|reflexivity]. apply holds_nil; cbn in H1; lia.
  - destruct vs as [|[k' v] vs]; [contradiction|]. cbn [fields_typed] in Ht. destruct Ht as (<- & Ht1 & Ht2).
    cbn [snd] in HW. cbn [fsize fold_right snd payloads] in *. fold (fsize fs) in *.
    pose proof (payload_nonneg t v) as Hp. pose proof (payloads_nonneg fs vs) as Hpl.
    pose proof (size_nonneg t) as Hs. pose proof (fsize_nonneg fs) as Hfs.
    destruct (HW v m o io Ht1 H0 ltac:(lia) H2 H3 ltac:(lia) ltac:(lia)) as (m1 & ws & E1 & (S1 & R1) & Hw1 & Hr1).
    destruct (IH vs m1 (o + get_type_size t) (io + payload t v) (fun k v Hi => Hin k v (or_intror Hi)) Ht2
      ltac:(lia) ltac:(lia) ltac:(lia) ltac:(lia) ltac:(lia) ltac:(lia)) as (m2 & ws2 & E2 & (S2 & R2) & Hw2 & Hr2).
    exists m2, (ws ++ ws2). split.
    { cbn [write_fields]. rewrite (Hin k v (or_introl eq_refl)), E1. fold (write_fields full). rewrite E2. reflexivity. }
    split.
    { split; [lia|]. intros x Hx Hx'. rewrite R2, R1 by lia. reflexivity. }
    split.
    + apply words_at_app. rewrite (rep_words_len _ _ _ _ _ Hr1). split; [|exact Hw2].
      apply (holds_ext m1 m2); [lia| |exact Hw1]. intros x Hx. fold (words_bytes ws) in Hx.
      rewrite (rep_words_len _ _ _ _ _ Hr1) in Hx. apply R2; lia.
    + cbn [rep_fields]. exists ws, ws2. split; [reflexivity|]. split; [reflexivity|]. split.
      * eapply (rep_frame m1 m2); [lia| | |exact Hr1]; cbn beta; intros x Hx; [apply R2; lia|lia].
      * assert (Hgoal : rep m2 (fun x => io <= x < io + (payload t v + payloads fs vs)) (TTuple fs) (CTuple vs) ws2); [|exact Hgoal].
        eapply rep_weaken; [|exact Hr2]. cbn beta. intros x Hx. lia.
Qed.

Lemma assoc_self {A} (l : list (string * A)) : NoDup (map fst l) -> forall k v, In (k, v) l -> assoc k l = Some v.
Proof.
  induction l as [|[k' v'] l IH]; intros Hnd k v Hi; [contradiction|]. inversion Hnd as [|? ? Hn Hnd']; subst.
  cbn [assoc]. destruct Hi as [Hi|Hi].
  - inversion Hi; subst. rewrite String.eqb_refl. reflexivity.
  - destruct (String.eqb_spec k' k) as [->|_]; [|apply IH; auto].
    exfalso. apply Hn. apply (in_map fst) in Hi. exact Hi.
Qed.
Lemma fields_keys fs : forall vs, fields_typed fs vs -> map fst vs = map fst fs.
Proof.
  induction fs as [|[k t] fs IH]; intros [|[k' v] vs]; cbn [fields_typed]; try contradiction; [reflexivity|].
  intros (-> & _ & H). cbn [map fst]. rewrite (IH vs H). reflexivity.
Qed.
Lemma fields_ok_forall (Q : ty -> Prop) fs : Forall (fun f => ty_ok (snd f) -> no_trait (snd f) -> Q (snd f)) fs ->
  fields_ok fs -> fields_no_trait fs -> Forall (fun f => Q (snd f)) fs.
Proof.
  induction 1 as [|[k t] fs Ht H IH]; intros H1 H2; constructor; cbn [snd fields_ok fields_no_trait] in *; destruct H1, H2; auto.
Qed.

Lemma write_ok t : ty_ok t -> no_trait t -> writes t.
Proof.
  induction t using ty_ind'; intros Hok Hnt v m off ioff Ht H0 H1 H2 H3 H4 H5; destruct v;
    try (cbn [has_type no_trait] in Ht, Hnt; contradiction).
  - (* int *) cbn [get_type_size payload] in *. cbn [write_to_wasm]. unfold u64_bytes.
    rewrite hwrite_ok by (rewrite ?len_le_bytes; lia). set (m1 := write_bytes m off _).
    assert (S1 : msize m1 = msize m) by apply msize_write.
    rewrite hwrite_ok by (rewrite ?len_le_bytes; lia). set (m2 := write_bytes m1 _ _).
    assert (S2 : msize m2 = msize m) by (unfold m2; rewrite msize_write; exact S1).
    eexists m2, _. split; [reflexivity|]. split; [|split; [|reflexivity]].
    + split; [lia|]. intros x Hx _. unfold m2, m1. rewrite !rd_write_other by (rewrite ?len_le_bytes; lia). reflexivity.
    + apply words_at_cons. cbn [word_bytes]. rewrite len_le_bytes. change (Z.of_nat 8) with 8.
      change (2 ^ 64) with (256 ^ Z.of_nat 8). rewrite le_bytes_mod. split.
      * apply (holds_ext m1 m2); [lia| |].
        -- rewrite len_le_bytes. intros x Hx. unfold m2. rewrite rd_write_other by (rewrite ?len_le_bytes; lia). reflexivity.
        -- apply holds_write; rewrite ?len_le_bytes; try lia. apply le_bytes_byte.
      * unfold words_at. cbn [words_bytes flat_map word_bytes]. rewrite app_nil_r, le_bytes_mod.
        apply holds_write; rewrite ?len_le_bytes; try lia. apply le_bytes_byte.
  - (* uint *) cbn [get_type_size payload] in *. cbn [write_to_wasm]. unfold u64_bytes.
    rewrite hwrite_ok by (rewrite ?len_le_bytes; lia). set (m1 := write_bytes m off _).
    assert (S1 : msize m1 = msize m) by apply msize_write.
    rewrite hwrite_ok by (rewrite ?len_le_bytes; lia). set (m2 := write_bytes m1 _ _).
    assert (S2 : msize m2 = msize m) by (unfold m2; rewrite msize_write; exact S1).
    eexists m2, _. split; [reflexivity|]. split; [|split; [|reflexivity]].
    + split; [lia|]. intros x Hx _. unfold m2, m1. rewrite !rd_write_other by (rewrite ?len_le_bytes; lia). reflexivity.
    + apply words_at_cons. cbn [word_bytes]. rewrite len_le_bytes. change (Z.of_nat 8) with 8.
      change (2 ^ 64) with (256 ^ Z.of_nat 8). rewrite le_bytes_mod. split.
      * apply (holds_ext m1 m2); [lia| |].
        -- rewrite len_le_bytes. intros x Hx. unfold m2. rewrite rd_write_other by (rewrite ?len_le_bytes; lia). reflexivity.
        -- apply holds_write; rewrite ?len_le_bytes; try lia. apply le_bytes_byte.
      * unfold words_at. cbn [words_bytes flat_map word_bytes]. rewrite app_nil_r, le_bytes_mod.
        apply holds_write; rewrite ?len_le_bytes; try lia. apply le_bytes_byte.
  - (* bool *) cbn [get_type_size payload] in *. cbn [write_to_wasm]. rewrite hwrite_ok by (rewrite ?len_le_bytes; lia).
    eexists _, _. split; [reflexivity|]. split; [|split; [|reflexivity]].
    + split; [apply msize_write|]. intros x Hx _. rewrite rd_write_other by (rewrite ?len_le_bytes; lia). reflexivity.
    + unfold words_at. cbn [words_bytes flat_map word_bytes]. rewrite app_nil_r.
      apply holds_write; rewrite ?len_le_bytes; try lia. apply le_bytes_byte.
  - (* principal *) cbn [has_type] in Ht. pose proof (prin_mem_eq p Ht) as Ep.
    apply (writes_bytes m off ioff (prin_bytes p)); auto; [cbn [write_to_wasm]; rewrite Ep; reflexivity|apply prin_bytes_byte; auto].
  - (* buff *) cbn [has_type] in Ht. apply (writes_bytes m off ioff bs); auto; apply Ht.
  - (* ascii *) cbn [has_type] in Ht. apply (writes_bytes m off ioff bs); auto. apply clarity_ascii_byte, Ht.
  - (* utf8 *) apply (writes_bytes m off ioff (flat_map (be_bytes 4) cs)); auto. apply be4s_byte.
  - (* list *) cbn [has_type ty_ok no_trait] in Ht, Hok, Hnt. destruct Ht as (_ & Ht). destruct Hok as (_ & Hok).
    specialize (IHt Hok Hnt). cbn [payload get_type_size] in *. fold (pay_list t vs) in *.
    pose proof (pay_list_nonneg t vs) as Hpl. pose proof (size_nonneg t) as Hs.
    assert (Hnn : 0 <= Z.of_nat (length vs) * get_type_size t) by nia. set (L := Z.of_nat (length vs) * get_type_size t) in *.
    destruct (write_elems_ok t IHt vs m ioff (ioff + L) Ht H3 ltac:(lia) H2 ltac:(lia) ltac:(lia) ltac:(lia)) as (m1 & E1 & (S1 & R1) & Hr1).
    fold L in E1, R1, Hr1. cbn [write_to_wasm]. fold (write_elems t). fold L. rewrite E1.
    unfold write_repr, i32_bytes. rewrite hwrite_ok by (rewrite ?len_le_bytes; lia). set (m2 := write_bytes m1 off _).
    assert (S2 : msize m2 = msize m) by (unfold m2; rewrite msize_write; exact S1).
    rewrite hwrite_ok by (rewrite ?len_le_bytes; lia). set (m3 := write_bytes m2 (off + 4) _).
    assert (S3 : msize m3 = msize m) by (unfold m3; rewrite msize_write; exact S2).
    assert (R3 : forall x, (x < off \/ off + 8 <= x) -> rd m3 x = rd m1 x).
    { intros. unfold m3, m2. rewrite !rd_write_other by (rewrite ?len_le_bytes; lia). reflexivity. }
    exists m3, [VI32 ioff; VI32 L]. cbn [fst snd]. split; [reflexivity|]. split.
    { split; [lia|]. intros x Hx Hx'. rewrite R3, R1 by lia. reflexivity. }
    split.
    { apply words_at_two. split.
      - apply (holds_ext m2 m3); [lia| |].
        + rewrite len_le_bytes. intros x Hx. unfold m3. rewrite rd_write_other by (rewrite ?len_le_bytes; lia). reflexivity.
        + apply holds_write; rewrite ?len_le_bytes; try lia. apply le_bytes_byte.
      - apply holds_write; rewrite ?len_le_bytes; try lia. apply le_bytes_byte. }
    cbn [rep]. rewrite words_size_ty. fold L. exists ioff. split; [reflexivity|]. split; [lia|]. split; [lia|]. split; [lia|].
    split; [intros x Hx; lia|].
    match goal with |- ?G => assert (Hgoal : rep_elems m3 (fun x => ioff <= x < ioff + (L + pay_list t vs)) t vs ioff) end.
    { eapply (rep_elems_frame m1 m3); [| | | |exact Hr1]; cbn beta.
      - lia.
      - intros x Hx. apply R3. lia.
      - intros x Hx. lia.
      - rewrite words_size_ty. fold L. intros x Hx. left. exact Hx. }
    unfold rep_elems in Hgoal. rewrite words_size_ty in Hgoal. exact Hgoal.
  - (* none *) cbn [get_type_size payload] in *. pose proof (size_nonneg t) as Hs. cbn [write_to_wasm]. unfold i32_bytes.
    rewrite hwrite_ok by (rewrite ?len_le_bytes; lia). set (m1 := write_bytes m off _).
    assert (S1 : msize m1 = msize m) by apply msize_write.
    destruct (words_exist m1 (clar2wasm_ty t) (off + 4)) as (ws & Hty & Hw); [lia|rewrite words_size_ty; lia|lia|].
    exists m1, (VI32 0 :: ws). split; [reflexivity|]. split.
    { split; [exact S1|]. intros x Hx _. unfold m1. rewrite rd_write_other by (rewrite ?len_le_bytes; lia). reflexivity. }
    split.
    + apply words_at_cons. cbn [word_bytes]. rewrite len_le_bytes. split; [|exact Hw].
      apply holds_write; rewrite ?len_le_bytes; try lia. apply le_bytes_byte.
    + cbn [rep]. eauto.
  - (* some *) cbn [has_type ty_ok no_trait get_type_size payload] in *. specialize (IHt Hok Hnt).
    pose proof (size_nonneg t) as Hs. pose proof (payload_nonneg t v) as Hp. cbn [write_to_wasm]. unfold i32_bytes.
    rewrite hwrite_ok by (rewrite ?len_le_bytes; lia). set (m1 := write_bytes m off _).
    assert (S1 : msize m1 = msize m) by apply msize_write.
    destruct (IHt v m1 (off + 4) ioff Ht ltac:(lia) ltac:(lia) ltac:(lia) H3 ltac:(lia) ltac:(lia)) as (m2 & ws & E & (S2 & R2) & Hw & Hr).
    rewrite E. exists m2, (VI32 1 :: ws). split; [reflexivity|]. split.
    { split; [lia|]. intros x Hx Hx'. rewrite R2 by lia. unfold m1. rewrite rd_write_other by (rewrite ?len_le_bytes; lia). reflexivity. }
    split; [|cbn [rep]; eauto].
    apply words_at_cons. cbn [word_bytes]. rewrite len_le_bytes. split; [|exact Hw].
    apply (holds_ext m1 m2); [lia| |apply holds_write; rewrite ?len_le_bytes; try lia; apply le_bytes_byte].
    rewrite len_le_bytes. intros x Hx. apply R2; lia.
  - (* ok *) cbn [has_type ty_ok no_trait get_type_size payload] in *. destruct Hok as (Hok & _). destruct Hnt as (Hnt & _). specialize (IHt1 Hok Hnt).
    pose proof (size_nonneg t1) as Hs. pose proof (size_nonneg t2) as Hs2. pose proof (payload_nonneg t1 v) as Hp. cbn [write_to_wasm]. unfold i32_bytes.
    rewrite hwrite_ok by (rewrite ?len_le_bytes; lia). set (m1 := write_bytes m off _).
    assert (S1 : msize m1 = msize m) by apply msize_write.
    destruct (IHt1 v m1 (off + 4) ioff Ht ltac:(lia) ltac:(lia) ltac:(lia) H3 ltac:(lia) ltac:(lia)) as (m2 & ws & E & (S2 & R2) & Hw & Hr).
    destruct (words_exist m2 (clar2wasm_ty t2) (off + 4 + get_type_size t1)) as (ws2 & Hty & Hw2); [lia|rewrite words_size_ty; lia|lia|].
    rewrite E. exists m2, (VI32 1 :: ws ++ ws2). split; [reflexivity|]. split.
    { split; [lia|]. intros x Hx Hx'. rewrite R2 by lia. unfold m1. rewrite rd_write_other by (rewrite ?len_le_bytes; lia). reflexivity. }
    split; [|cbn [rep]; eauto 8].
    apply words_at_cons. cbn [word_bytes]. rewrite len_le_bytes. split.
    + apply (holds_ext m1 m2); [lia| |apply holds_write; rewrite ?len_le_bytes; try lia; apply le_bytes_byte].
      rewrite len_le_bytes. intros x Hx. apply R2; lia.
    + apply words_at_app. rewrite (rep_words_len _ _ _ _ _ Hr). split; [exact Hw|exact Hw2].
  - (* err *) cbn [has_type ty_ok no_trait get_type_size payload] in *. destruct Hok as (_ & Hok). destruct Hnt as (_ & Hnt). specialize (IHt2 Hok Hnt).
    pose proof (size_nonneg t1) as Hs. pose proof (size_nonneg t2) as Hs2. pose proof (payload_nonneg t2 v) as Hp. cbn [write_to_wasm]. unfold i32_bytes.
    rewrite hwrite_ok by (rewrite ?len_le_bytes; lia). set (m1 := write_bytes m off _).
    assert (S1 : msize m1 = msize m) by apply msize_write.
    destruct (IHt2 v m1 (off + (4 + get_type_size t1)) ioff Ht ltac:(lia) ltac:(lia) ltac:(lia) H3 ltac:(lia) ltac:(lia)) as (m2 & ws & E & (S2 & R2) & Hw & Hr).
    destruct (words_exist m2 (clar2wasm_ty t1) (off + 4)) as (ws1 & Hty & Hw1); [lia|rewrite words_size_ty; lia|lia|].
    rewrite E. exists m2, (VI32 0 :: ws1 ++ ws). split; [reflexivity|]. split.
    { split; [lia|]. intros x Hx Hx'. rewrite R2 by lia. unfold m1. rewrite rd_write_other by (rewrite ?len_le_bytes; lia). reflexivity. }
    split; [|cbn [rep]; eauto 8].
    apply words_at_cons. cbn [word_bytes]. rewrite len_le_bytes. split.
    + apply (holds_ext m1 m2); [lia| |apply holds_write; rewrite ?len_le_bytes; try lia; apply le_bytes_byte].
      rewrite len_le_bytes. intros x Hx. apply R2; lia.
    + apply words_at_app. rewrite (words_bytes_len _ _ Hty), words_size_ty. split; [exact Hw1|].
      change (Z.of_nat 4) with 4. replace (off + 4 + get_type_size t1) with (off + (4 + get_type_size t1)) by lia. exact Hw.
  - (* tuple *) rewrite ty_ok_tuple in Hok. destruct Hok as (_ & Hnd & Hok). change (fields_no_trait fs) in Hnt.
    change (fields_typed fs fs0) in Ht. change (payload (TTuple fs) (CTuple fs0)) with (payloads fs fs0) in *.
    change (get_type_size (TTuple fs)) with (fsize fs) in *.
    assert (Hin : forall k v, In (k, v) fs0 -> assoc k fs0 = Some v).
    { apply assoc_self. rewrite (fields_keys _ _ Ht). exact Hnd. }
    pose proof (fields_ok_forall writes fs H Hok Hnt) as HW.
    exact (write_fields_ok fs0 fs HW fs0 m off ioff Hin Ht H0 H1 H2 H3 H4 H5).
Qed.

(** the space [get_type_in_memory_size] reserves is enough *)
Lemma payload_bound t : ty_ok t -> forall v, has_type t v ->
  get_type_size t + payload t v <= get_type_in_memory_size t true.
Proof.
  induction t using ty_ind'; intros Hok v Ht; destruct v; try (cbn [has_type] in Ht; contradiction);
    cbn [get_type_size payload get_type_in_memory_size has_type ty_ok] in *; try lia.
  - pose proof (prin_bytes_len p Ht). lia.
  - destruct Ht as (_ & Ht & _). pose proof (prin_bytes_len p Ht). lia.
  - replace (length (flat_map (be_bytes 4) cs)) with (4 * length cs)%nat; [lia|].
    clear. induction cs as [|c cs IH]; [reflexivity|]. cbn [flat_map length]. rewrite app_length, len_be_bytes, <- IH. lia.
  - destruct Ht as (Hl & Ht). destruct Hok as (Hn & Hok). pose proof (size_pos t Hok).
    assert (HS : Z.of_nat (length vs) * get_type_size t + pay_list t vs <= Z.of_nat (length vs) * get_type_in_memory_size t true).
    { clear Hl. induction Ht as [|v vs Hv Ht IH]; [cbn; lia|]. cbn [length pay_list fold_right]. fold (pay_list t vs).
      rewrite Nat2Z.inj_succ. specialize (IHt Hok v Hv). lia. }
    fold (pay_list t vs).
    assert (0 <= get_type_in_memory_size t true).
    { clear - Hok IHt Ht H. clear IHt Ht H. revert Hok. induction t using ty_ind'; cbn [ty_ok get_type_in_memory_size]; intros Hok; try lia.
      - destruct Hok. specialize (IHt H0). nia.
      - specialize (IHt Hok). lia.
      - destruct Hok. specialize (IHt1 H). specialize (IHt2 H0). lia.
      - destruct Hok as (_ & _ & Hok). change (fields_ok fs) in Hok. induction H as [|[k t] fs Hf H IH]; cbn [fold_right snd fields_ok] in *; [lia|].
        destruct Hok as (Ha & Hb). specialize (Hf Ha). specialize (IH Hb). lia. }
    nia.
  - (* none *) clear IHt. assert (HI : forall t, ty_ok t -> get_type_size t <= get_type_in_memory_size t true); [|specialize (HI t Hok); lia].
    clear. induction t using ty_ind'; cbn [ty_ok get_type_size get_type_in_memory_size]; intros Hok; try lia.
    + destruct Hok. specialize (IHt H0). pose proof (size_nonneg t). nia.
    + specialize (IHt Hok). lia.
    + destruct Hok. specialize (IHt1 H). specialize (IHt2 H0). lia.
    + destruct Hok as (_ & _ & Hok). change (fields_ok fs) in Hok. induction H as [|[k t] fs Hf H IH]; cbn [fold_right snd fields_ok] in *; [lia|].
        destruct Hok as (Ha & Hb). specialize (Hf Ha). specialize (IH Hb). lia.
  - specialize (IHt Hok v Ht). lia.
  - destruct Hok as (Ho1 & Ho2). specialize (IHt1 Ho1 v Ht).
    assert (get_type_size t2 <= get_type_in_memory_size t2 true); [|lia].
    clear - Ho2. revert Ho2. induction t2 using ty_ind'; cbn [ty_ok get_type_size get_type_in_memory_size]; intros Hok; try lia.
    + destruct Hok. specialize (IHt2 H0). pose proof (size_nonneg t2). nia.
    + specialize (IHt2 Hok). lia.
    + destruct Hok. specialize (IHt2_1 H). specialize (IHt2_2 H0). lia.
    + destruct Hok as (_ & _ & Hok). change (fields_ok fs) in Hok. induction H as [|[k t] fs Hf H IH]; cbn [fold_right snd fields_ok] in *; [lia|].
        destruct Hok as (Ha & Hb). specialize (Hf Ha). specialize (IH Hb). lia.
  - destruct Hok as (Ho1 & Ho2). specialize (IHt2 Ho2 v Ht).
    assert (get_type_size t1 <= get_type_in_memory_size t1 true); [|lia].
    clear - Ho1. revert Ho1. induction t1 using ty_ind'; cbn [ty_ok get_type_size get_type_in_memory_size]; intros Hok; try lia.
    + destruct Hok. specialize (IHt1 H0). pose proof (size_nonneg t1). nia.
    + specialize (IHt1 Hok). lia.
    + destruct Hok. specialize (IHt1_1 H). specialize (IHt1_2 H0). lia.
    + destruct Hok as (_ & _ & Hok). change (fields_ok fs) in Hok. induction H as [|[k t] fs Hf H IH]; cbn [fold_right snd fields_ok] in *; [lia|].
        destruct Hok as (Ha & Hb). specialize (Hf Ha). specialize (IH Hb). lia.
  - destruct Hok as (_ & _ & Hok). change (fields_ok fs) in Hok. change (fields_typed fs fs0) in Ht.
    fold (payloads fs fs0). revert fs0 Ht. induction H as [|[k t] fs Hf H IH]; intros vs Ht; cbn [fold_right snd fields_ok payloads] in *; [lia|].
    destruct vs as [|[k' v] vs]; [contradiction|]. cbn [fields_typed] in Ht. destruct Ht as (_ & Ht1 & Ht2). destruct Hok as (Ha & Hb).
    specialize (Hf Ha v Ht1). specialize (IH Hb vs Ht2). lia.
Qed.
