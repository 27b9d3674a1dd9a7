(** * Proofs about the generator's literal memory. *)
From Coq Require Import ZArith String List Bool Lia.
Import ListNotations.
From Verif Require Import Wasm Std StdEnv Spec SpecBytes SpecUtf8 Mem MemFacts Bytes Gen ErrMap.
Open Scope string_scope.
Open Scope list_scope.
Open Scope Z_scope.

(** ** Data segments *)
Definition seg_ok (s : Z * list Z) : Prop := Forall (fun b => 0 <= b < 256) (snd s).

(** segments in increasing order without overlap, starting at or after [lo], ending at or before [hi] *)
Fixpoint sorted (lo : Z) (segs : list (Z * list Z)) (hi : Z) : Prop :=
  match segs with
  | [] => lo <= hi
  | (o, bs) :: r => lo <= o /\ sorted (o + Z.of_nat (length bs)) r hi
  end.

Lemma sorted_le segs : forall lo hi, sorted lo segs hi -> lo <= hi.
Proof.
  induction segs as [|[o bs] r IH]; cbn [sorted]; intros lo hi H; [lia|]. destruct H as [H1 H2]. apply IH in H2. lia.
Qed.
Lemma sorted_app xs ys : forall lo mid hi, sorted lo xs mid -> sorted mid ys hi -> sorted lo (xs ++ ys) hi.
Proof.
  induction xs as [|[o bs] r IH]; cbn [sorted app]; intros lo mid hi H1 H2.
  - destruct ys as [|[o bs] r]; cbn [sorted] in *; intuition lia.
  - destruct H1 as [H0 H1]. split; [lia|]. eapply IH; eauto.
Qed.
Lemma sorted_in segs : forall lo hi o bs, sorted lo segs hi -> In (o, bs) segs -> lo <= o /\ o + Z.of_nat (length bs) <= hi.
Proof.
  induction segs as [|[o' bs'] r IH]; cbn [sorted In]; intros lo hi o bs H Hi; [easy|]. destruct H as [H1 H2].
  pose proof (sorted_le _ _ _ H2). destruct Hi as [Hi|Hi]; [injection Hi as -> ->; lia|].
  destruct (IH _ _ _ _ H2 Hi). lia.
Qed.
Lemma sorted_pair segs : forall lo hi o1 b1 o2 b2, sorted lo segs hi -> In (o1, b1) segs -> In (o2, b2) segs ->
  (o1 = o2 /\ b1 = b2) \/ o1 + Z.of_nat (length b1) <= o2 \/ o2 + Z.of_nat (length b2) <= o1.
Proof.
  induction segs as [|[o' bs'] r IH]; cbn [sorted In]; intros lo hi o1 b1 o2 b2 H Hi1 Hi2; [easy|]. destruct H as [H1 H2].
  destruct Hi1 as [Hi1|Hi1], Hi2 as [Hi2|Hi2].
  - left. split; congruence.
  - injection Hi1 as -> ->. destruct (sorted_in _ _ _ _ _ H2 Hi2). lia.
  - injection Hi2 as -> ->. destruct (sorted_in _ _ _ _ _ H2 Hi1). lia.
  - eapply IH; eauto.
Qed.

Lemma msize_fold segs : forall m, msize (fold_left (fun m s => write_bytes m (fst s) (snd s)) segs m) = msize m.
Proof. induction segs as [|s r IH]; cbn [fold_left]; intros m; [reflexivity|]. rewrite IH, msize_write. reflexivity. Qed.

Lemma fold_below segs : forall m lo hi x, sorted lo segs hi -> x < lo ->
  rd (fold_left (fun m s => write_bytes m (fst s) (snd s)) segs m) x = rd m x.
Proof.
  induction segs as [|[o bs] r IH]; cbn [fold_left sorted]; intros m lo hi x H Hx; [reflexivity|].
  destruct H as [H1 H2]. rewrite (IH _ _ _ _ H2) by (pose proof (Zle_0_nat (length bs)); lia). cbn [fst snd].
  apply (proj2 (only_write bs m o)). lia.
Qed.

Lemma init_holds segs : forall m lo hi o bs, 0 <= lo -> sorted lo segs hi -> Forall seg_ok segs ->
  hi <= msize m -> msize m <= 2 ^ 32 -> In (o, bs) segs ->
  holds (fold_left (fun m s => write_bytes m (fst s) (snd s)) segs m) o bs.
Proof.
  induction segs as [|[o' bs'] r IH]; cbn [fold_left sorted In]; intros m lo hi o bs Hlo H HF Hm Hm2 Hi; [easy|].
  inversion_clear HF as [|? ? HF1 HF2].
  destruct H as [H1 H2]. destruct Hi as [Hi|Hi].
  - injection Hi as -> ->. pose proof (sorted_le _ _ _ H2).
    split; [lia|]. rewrite msize_fold, msize_write. split; [split; [lia|exact Hm2]|].
    rewrite (bytes_at_ext _ (write_bytes m o bs)).
    { apply bytes_at_write. exact HF1. }
    intros x Hx. cbn [fst snd]. apply (fold_below r _ _ hi _ H2). lia.
  - apply (IH _ (o' + Z.of_nat (length bs')) hi); auto; [lia| |]; cbn [fst snd]; rewrite msize_write; auto.
Qed.

(** ** Keys *)
Lemma zs_eqb_eq a : forall b, zs_eqb a b = true <-> a = b.
Proof.
  induction a as [|x a IH]; intros [|y b]; cbn [zs_eqb]; split; intro H; try discriminate; auto.
  - apply andb_prop in H as [H1 H2]. apply Z.eqb_eq in H1. apply IH in H2. congruence.
  - assert (x = y /\ a = b) as [-> ->] by (split; congruence). rewrite Z.eqb_refl. cbn [andb]. apply IH. reflexivity.
Qed.
Lemma entry_eqb_eq a b : entry_eqb a b = true <-> a = b.
Proof.
  destruct a, b; cbn [entry_eqb]; try (split; intro; discriminate); rewrite zs_eqb_eq; split; congruence.
Qed.
Lemma glookup_in m e o : glookup m e = Some o -> In (e, o) m.
Proof.
  induction m as [|[k o'] m IH]; cbn [glookup In]; [discriminate|].
  destruct (entry_eqb k e) eqn:He; [apply entry_eqb_eq in He; subst; intros [= ->]; auto|auto].
Qed.

(** escaping is injective: decode one escaped byte *)
Definition unhex (c : Z) : Z := if c <? 58 then c - 48 else c - 87.
Definition unescape1 (s : list Z) : option (Z * list Z) :=
  match s with
  | [] => None
  | c :: r =>
      if c =? 34 then None
      else if c =? 92 then
        match r with
        | d :: r =>
            if d =? 116 then Some (9, r) else if d =? 110 then Some (10, r) else if d =? 114 then Some (13, r)
            else if d =? 120 then match r with h :: l :: r => Some (16 * unhex h + unhex l, r) | _ => None end
            else Some (d, r)
        | [] => None
        end
      else Some (c, r)
  end.

Lemma unhex_hexd n : 0 <= n < 16 -> unhex (hexd n) = n.
Proof. intros H. unfold unhex, hexd. destruct (n <? 10) eqn:H1; [destruct (48 + n <? 58) eqn:H2|destruct (87 + n <? 58) eqn:H2]; lia. Qed.
Lemma unescape1_escape b r : 0 <= b < 256 -> unescape1 (escape b ++ r) = Some (b, r).
Proof.
  intros Hb. unfold escape.
  destruct (b =? 9) eqn:E1; [apply Z.eqb_eq in E1; subst; reflexivity|].
  destruct (b =? 10) eqn:E2; [apply Z.eqb_eq in E2; subst; reflexivity|].
  destruct (b =? 13) eqn:E3; [apply Z.eqb_eq in E3; subst; reflexivity|].
  destruct (b =? 39) eqn:E4; [apply Z.eqb_eq in E4; subst; reflexivity|].
  destruct (b =? 34) eqn:E5; [apply Z.eqb_eq in E5; subst; reflexivity|].
  destruct (b =? 92) eqn:E6; [apply Z.eqb_eq in E6; subst; reflexivity|].
  destruct ((32 <=? b) && (b <? 127)) eqn:E7.
  - cbn [app unescape1]. rewrite E5, E6. reflexivity.
  - cbn [app unescape1]. change (92 =? 34) with false. change (92 =? 92) with true. change (120 =? 116) with false.
    change (120 =? 110) with false. change (120 =? 114) with false. change (120 =? 120) with true. cbv iota.
    rewrite !unhex_hexd by (Z.div_mod_to_equations; lia). do 2 f_equal. Z.div_mod_to_equations; lia.
Qed.
Lemma escape_ne b r : 0 <= b < 256 -> escape b ++ r <> [34].
Proof.
  intros Hb He. pose proof (unescape1_escape b r Hb) as H. rewrite He in H. discriminate H.
Qed.
Lemma escapes_inj xs : forall ys, Forall (fun b => 0 <= b < 256) xs -> Forall (fun b => 0 <= b < 256) ys ->
  flat_map escape xs ++ [34] = flat_map escape ys ++ [34] -> xs = ys.
Proof.
  induction xs as [|x xs IH]; intros [|y ys] Hx Hy He; [reflexivity| | |]; cbn [flat_map] in He; rewrite <- ?app_assoc in He.
  - inversion_clear Hy. symmetry in He. cbn [app] in He. apply escape_ne in He; [easy|auto].
  - inversion_clear Hx. cbn [app] in He. apply escape_ne in He; [easy|auto].
  - inversion_clear Hx as [|? ? Hx1 Hx2]. inversion_clear Hy as [|? ? Hy1 Hy2].
    apply (f_equal unescape1) in He. rewrite !unescape1_escape in He by auto.
    assert (x = y /\ flat_map escape xs ++ [34] = flat_map escape ys ++ [34]) as [-> He'] by (split; congruence).
    f_equal. apply IH; auto.
Qed.
Lemma ascii_display_inj xs ys : Forall (fun b => 0 <= b < 256) xs -> Forall (fun b => 0 <= b < 256) ys ->
  ascii_display xs = ascii_display ys -> xs = ys.
Proof. intros Hx Hy He. apply escapes_inj; auto. unfold ascii_display in He. cbn [app] in He. injection He as He. exact He. Qed.

(** ** Well-formed literals *)
Definition bytesP (bs : list Z) : Prop := Forall (fun b => 0 <= b < 256) bs.
Definition lit_ok (l : lit) : Prop :=
  match l with
  | LAscii bs | LBytes bs | LBuff bs => bytesP bs
  | LUtf8 s => Forall scalar s
  | LIdent n => Forall scalar n /\ hd 0 n <> 34
  | LInt n => is_i128 n
  | LUInt n => is_u128 n
  | LPrin v h n => 0 <= v < 256 /\ bytesP h /\ bytesP n /\ Z.of_nat (length n) < 256
  end.

Lemma utf8_char_bytes c : scalar c -> bytesP (utf8_char c).
Proof.
  intros Hc. unfold utf8_char, bytesP.
  destruct (c <? 128) eqn:H1; [repeat constructor; unfold scalar in Hc; lia|].
  destruct (c <? 2048) eqn:H2; [repeat constructor; unfold scalar in Hc; Z.div_mod_to_equations; lia|].
  destruct (c <? 65536) eqn:H3; repeat constructor; unfold scalar in Hc; Z.div_mod_to_equations; lia.
Qed.
Lemma utf8_bytes cs : Forall scalar cs -> bytesP (utf8 cs).
Proof.
  induction 1 as [|c cs Hc _ IH]; [constructor|]. unfold utf8. cbn [flat_map]. apply Forall_app. split; [apply utf8_char_bytes; auto|exact IH].
Qed.
Lemma be4s_bytes cs : bytesP (flat_map be4 cs).
Proof.
  induction cs as [|c cs IH]; [constructor|]. cbn [flat_map]. apply Forall_app. split; [|exact IH].
  unfold be4. repeat constructor; apply Z.mod_pos_bound; lia.
Qed.

Lemma lit_data_bytes l : lit_ok l -> bytesP (lit_data l).
Proof.
  destruct l; cbn [lit_ok lit_data]; intros H; auto.
  - apply be4s_bytes.
  - apply utf8_bytes, H.
  - apply Forall_app. split; apply le_bytes_byte.
  - apply Forall_app. split; apply le_bytes_byte.
  - destruct H as (H1 & H2 & H3 & H4). constructor; [auto|]. apply Forall_app. split; [auto|].
    constructor; [lia|auto].
Qed.

Lemma lit_key_data l l' : lit_ok l -> lit_ok l' -> lit_key l = lit_key l' -> lit_key l <> None -> lit_data l = lit_data l'.
Proof.
  destruct l, l'; cbn [lit_ok lit_key lit_data]; intros H H' He Hn; try congruence.
  - apply ascii_display_inj; auto. congruence.
  - exfalso. injection He as He. destruct H' as [_ H']. apply H'. rewrite <- He. reflexivity.
  - exfalso. injection He as He. destruct H as [_ H]. apply H. rewrite He. reflexivity.
Qed.
Lemma len_be4s cs : Z.of_nat (length (flat_map be4 cs)) = Z.of_nat (length cs) * 4.
Proof. induction cs as [|c cs IH]; [reflexivity|]. cbn [flat_map]. rewrite app_length, Nat2Z.inj_add, IH. cbn [length be4]. lia. Qed.
Lemma hit_len l : Z.of_nat (length (lit_data l)) < m32 -> lit_hit_len l = Z.of_nat (length (lit_data l)).
Proof.
  destruct l; cbn [lit_hit_len lit_data]; intros H; try (apply Z.mod_small; lia).
  rewrite len_be4s in *. rewrite (Z.mod_small (Z.of_nat (length scalars))) by lia. apply Z.mod_small. lia.
Qed.

(** ** Sizes *)
Definition step_ok (s : gstep) : Prop :=
  match s with GLit l => lit_ok l | GFrame n => 0 <= n | GWork n => 0 <= n < 2 ^ 32 end.
Definition lit_size (s : gstep) : Z := match s with GLit l => Z.of_nat (length (lit_data l)) | _ => 0 end.
Definition frame_of (s : gstep) : Z := match s with GFrame n => n | _ => 0 end.
Definition work_of (s : gstep) : Z := match s with GWork n => n | _ => 0 end.
Definition sumz (f : gstep -> Z) (ss : list gstep) : Z := fold_right (fun s n => f s + n) 0 ss.
Definition maxz (f : gstep -> Z) (ss : list gstep) : Z := fold_right (fun s n => Z.max (f s) n) 0 ss.

Lemma sumz_app f xs ys : sumz f (xs ++ ys) = sumz f xs + sumz f ys.
Proof. unfold sumz. induction xs as [|x xs IH]; cbn [fold_right app]; lia. Qed.
Lemma maxz_app f xs ys : maxz f (xs ++ ys) = Z.max (maxz f xs) (maxz f ys).
Proof.
  unfold maxz. induction xs as [|x xs IH]; cbn [fold_right app]; [|lia].
  assert (0 <= fold_right (fun s n => Z.max (f s) n) 0 ys) by (induction ys; cbn [fold_right]; lia). lia.
Qed.
Lemma sumz_nonneg f ss : (forall s, In s ss -> 0 <= f s) -> 0 <= sumz f ss.
Proof. induction ss as [|s ss IH]; cbn [sumz fold_right]; intros H; [lia|]. pose proof (H s (or_introl eq_refl)). specialize (IH (fun x Hx => H x (or_intror Hx))). unfold sumz in IH. lia. Qed.
Lemma lit_size_nonneg s : 0 <= lit_size s.
Proof. destruct s; cbn; lia. Qed.

Lemma frames_nonneg ss : Forall step_ok ss -> 0 <= sumz frame_of ss.
Proof.
  intros H. apply sumz_nonneg. intros s Hs. rewrite Forall_forall in H. specialize (H _ Hs). destruct s; cbn in *; lia.
Qed.
Lemma works_nonneg ss : 0 <= maxz work_of ss.
Proof. unfold maxz. induction ss; cbn [fold_right]; lia. Qed.

(** ** Invariant *)
Record ginv (g : gen) (done : list (lit * Z)) : Prop := {
  gi_sorted : sorted end_of_standard_data (g_segs g) (g_end g);
  gi_lo : end_of_standard_data <= g_end g;
  gi_done : forall l o, In (l, o) done -> lit_ok l /\ In (o, lit_data l) (g_segs g);
  gi_map : forall e o, In (e, o) (g_map g) -> exists l, In (l, o) done /\ lit_key l = Some e;
  gi_key : forall l o e, In (l, o) done -> lit_key l = Some e -> glookup (g_map g) e = Some o;
  gi_bytes : Forall seg_ok (g_segs g) }.

Lemma ginv0 : ginv gen0 [].
Proof. split; cbn; try easy; try lia. Qed.

Lemma append_inv g done l e : ginv g done -> lit_ok l -> lit_key l = e ->
  g_end g + Z.of_nat (length (lit_data l)) < 2 ^ 32 ->
  match e with Some k => glookup (g_map g) k = None | None => True end ->
  ginv (fst (append g (lit_data l) e)) ((l, g_end g) :: done) /\
  snd (append g (lit_data l) e) = (g_end g, Z.of_nat (length (lit_data l))) /\
  g_end (fst (append g (lit_data l) e)) = g_end g + Z.of_nat (length (lit_data l)).
Proof.
  intros [I1 I2 I3 I4 I5 I6] Hok Hk Hsz Hfresh. change (2 ^ 32) with m32 in *.
  assert (Hlo : 0 <= g_end g) by (unfold end_of_standard_data in *; lia).
  unfold append. cbn [fst snd g_end g_map g_segs].
  rewrite (Z.mod_small (Z.of_nat (length (lit_data l)))) by lia.
  rewrite (Z.mod_small (g_end g + _)) by lia.
  split; [|split; reflexivity].
  split; cbn [g_end g_map g_segs].
  - eapply sorted_app; [exact I1|]. cbn [sorted]. lia.
  - lia.
  - intros l' o [Hi|Hi].
    + injection Hi as <- <-. split; [auto|]. apply in_or_app. right. left. reflexivity.
    + destruct (I3 _ _ Hi) as [H1 H2]. split; [auto|]. apply in_or_app. auto.
  - intros e' o Hi. destruct e as [k|].
    + destruct Hi as [Hi|Hi]; [injection Hi as <- <-; exists l; split; [left; reflexivity|auto]|].
      destruct (I4 _ _ Hi) as (l' & H1 & H2). exists l'. split; [right; auto|auto].
    + destruct (I4 _ _ Hi) as (l' & H1 & H2). exists l'. split; [right; auto|auto].
  - intros l' o e' Hi Hk'. destruct Hi as [Hi|Hi].
    + injection Hi as <- <-. destruct e as [k|]; [|congruence]. assert (k = e') by congruence. subst k. cbn [glookup].
      rewrite (proj2 (entry_eqb_eq e' e')) by reflexivity. reflexivity.
    + pose proof (I5 _ _ _ Hi Hk') as Hg. destruct e as [k|]; [|exact Hg]. cbn [glookup].
      destruct (entry_eqb k e') eqn:He; [|exact Hg]. apply entry_eqb_eq in He. subst. congruence.
  - apply Forall_app. split; [auto|]. constructor; [apply lit_data_bytes; auto|constructor].
Qed.

Lemma add_lit_inv g done l : ginv g done -> lit_ok l ->
  g_end g + Z.of_nat (length (lit_data l)) < 2 ^ 32 ->
  let r := add_lit g l in
  ginv (fst r) ((l, fst (snd r)) :: done) /\ snd (snd r) = Z.of_nat (length (lit_data l)) /\
  g_end g <= g_end (fst r) <= g_end g + Z.of_nat (length (lit_data l)) /\
  (forall s, In s (g_segs g) -> In s (g_segs (fst r))) /\
  g_frame (fst r) = g_frame g /\ g_work (fst r) = g_work g.
Proof.
  intros I Hok Hsz. cbv zeta. unfold add_lit. pose proof I as [I1 I2 I3 I4 I5 I6].
  assert (Hlo : 0 <= g_end g) by (unfold end_of_standard_data in *; lia).
  assert (HA : match lit_key l with Some k => glookup (g_map g) k = None | None => True end ->
    let r := append g (lit_data l) (lit_key l) in
    ginv (fst r) ((l, fst (snd r)) :: done) /\ snd (snd r) = Z.of_nat (length (lit_data l)) /\
    g_end g <= g_end (fst r) <= g_end g + Z.of_nat (length (lit_data l)) /\
    (forall s, In s (g_segs g) -> In s (g_segs (fst r))) /\
    g_frame (fst r) = g_frame g /\ g_work (fst r) = g_work g).
  { intros Hf. cbv zeta. destruct (append_inv g done l _ I Hok eq_refl Hsz Hf) as (A1 & A2 & A3).
    rewrite A2, A3. cbn [fst snd]. split; [exact A1|]. split; [reflexivity|]. split; [lia|].
    split; [|split; reflexivity]. intros s Hs. unfold append. cbn [fst g_segs]. apply in_or_app. auto. }
  destruct (lit_key l) as [k|] eqn:Hk; [|apply HA; auto].
  destruct (glookup (g_map g) k) as [o|] eqn:Hg; [|apply HA; auto].
  cbn [fst snd]. destruct (I4 _ _ (glookup_in _ _ _ Hg)) as (l' & Hl' & Hk').
  destruct (I3 _ _ Hl') as [Hok' Hin'].
  assert (Hd : lit_data l = lit_data l') by (apply lit_key_data; congruence).
  assert (Hln : Z.of_nat (length (lit_data l)) < m32) by lia.
  rewrite hit_len by exact Hln. split; [|split; [reflexivity|split; [lia|split; [auto|split; reflexivity]]]].
  split; auto.
  - intros l2 o2 [Hi|Hi]; [injection Hi as <- <-; split; [auto|rewrite Hd; auto]|auto].
  - intros e o2 Hi. destruct (I4 _ _ Hi) as (l2 & H1 & H2). exists l2. split; [right; auto|auto].
  - intros l2 o2 e [Hi|Hi] Hk2; [injection Hi as <- <-; congruence|eauto].
Qed.

(** literals of a compilation, with the offsets they were given *)
Fixpoint placements (g : gen) (ss : list gstep) : list (lit * Z) :=
  match ss with
  | [] => []
  | GLit l :: r => (l, fst (snd (add_lit g l))) :: placements (gdo g (GLit l)) r
  | s :: r => placements (gdo g s) r
  end.

Lemma compile_from ss : forall g done, ginv g done -> Forall step_ok ss ->
  g_end g + sumz lit_size ss < 2 ^ 32 ->
  let g' := fold_left gdo ss g in
  exists done', ginv g' done' /\ (forall x, In x done -> In x done') /\
    g_end g <= g_end g' <= g_end g + sumz lit_size ss /\
    (forall s, In s (g_segs g) -> In s (g_segs g')) /\
    g_frame g' = g_frame g + sumz frame_of ss /\ (0 <= g_work g -> g_work g' = Z.max (g_work g) (maxz work_of ss)).
Proof.
  induction ss as [|s ss IH]; cbv zeta; intros g done I Hok Hsz; cbn [fold_left sumz maxz fold_right].
  - exists done. split; [exact I|]. split; [auto|]. split; [lia|]. split; [auto|]. split; [lia|]. intros; lia.
  - inversion_clear Hok as [|? ? H1 H2]. pose proof (lit_size_nonneg s) as Hs.
    pose proof (sumz_nonneg lit_size ss (fun x _ => lit_size_nonneg x)) as Hss.
    change (sumz lit_size (s :: ss)) with (lit_size s + sumz lit_size ss) in *.
    destruct s as [l|n|n]; cbn [gdo lit_size frame_of work_of step_ok] in *.
    + destruct (add_lit_inv g done l I H1 ltac:(lia)) as (A1 & A2 & A3 & A4 & A5 & A6).
      destruct (IH _ _ A1 H2 ltac:(lia)) as (done' & D1 & D2 & D3 & D4 & D5 & D6).
      exists done'. fold (sumz lit_size ss) (sumz frame_of ss) (maxz work_of ss) in *.
      split; [exact D1|]. split; [intros x Hx; apply D2; right; exact Hx|]. split; [lia|].
      split; [auto|]. split; [lia|]. intros Hw. rewrite A6 in D6. rewrite (D6 Hw).
      unfold maxz. lia.
    + assert (I' : ginv (add_frame g n) done) by (destruct I; split; auto).
      destruct (IH _ _ I' H2 ltac:(cbn; lia)) as (done' & D1 & D2 & D3 & D4 & D5 & D6). cbn [g_end g_segs g_frame g_work add_frame] in *.
      exists done'. fold (sumz lit_size ss) (sumz frame_of ss) (maxz work_of ss) in *.
      split; [exact D1|]. split; [exact D2|]. split; [lia|]. split; [auto|]. split; [lia|].
      intros Hw. rewrite (D6 Hw). unfold maxz; lia.
    + assert (I' : ginv (ensure_work g n) done) by (destruct I; split; auto).
      destruct (IH _ _ I' H2 ltac:(cbn; lia)) as (done' & D1 & D2 & D3 & D4 & D5 & D6). cbn [g_end g_segs g_frame g_work ensure_work] in *.
      exists done'. fold (sumz lit_size ss) (sumz frame_of ss) (maxz work_of ss) in *.
      split; [exact D1|]. split; [exact D2|]. split; [lia|]. split; [auto|]. split; [lia|].
      intros Hw. rewrite D6 by lia. lia.
Qed.

Lemma std_data_sorted : sorted 0 std_data end_of_standard_data.
Proof. repeat (split; [vm_compute; discriminate|]). vm_compute. discriminate. Qed.
Lemma std_data_ok : Forall seg_ok std_data.
Proof.
  apply Forall_forall. intros s Hs. unfold seg_ok. apply Forall_forall. intros b Hb.
  assert (H : forallb (fun s => forallb (fun b => (0 <=? b) && (b <? 256)) (snd s)) std_data = true) by (vm_compute; reflexivity).
  rewrite forallb_forall in H. specialize (H _ Hs). rewrite forallb_forall in H. specialize (H _ Hb). lia.
Qed.

(** total memory demand of a compilation, as the property counts it *)
Definition demand (ss : list gstep) : Z := end_of_standard_data + sumz lit_size ss + sumz frame_of ss + maxz work_of ss.

Lemma compile_ok ss : Forall step_ok ss -> demand ss < 2 ^ 32 ->
  exists done, ginv (compile ss) done /\ g_end (compile ss) <= end_of_standard_data + sumz lit_size ss /\
    g_frame (compile ss) = sumz frame_of ss /\ g_work (compile ss) = maxz work_of ss.
Proof.
  intros Hok Hd. unfold demand in Hd.
  assert (0 <= sumz frame_of ss) by (apply sumz_nonneg; intros s Hs; rewrite Forall_forall in Hok; specialize (Hok _ Hs); destruct s; cbn in *; lia).
  assert (0 <= maxz work_of ss) by (unfold maxz; clear; induction ss; cbn [fold_right]; lia).
  destruct (compile_from ss gen0 [] ginv0 Hok ltac:(cbn [gen0 g_end]; lia)) as (done & D1 & D2 & D3 & D4 & D5 & D6).
  exists done. fold (compile ss) in *. split; [exact D1|]. cbn [gen0 g_end g_frame g_work] in *. split; [lia|]. split; [lia|].
  rewrite D6 by lia. lia.
Qed.

Lemma pages_cover g : 0 <= g_end g -> 0 <= g_frame g -> 0 <= g_work g -> g_end g + g_frame g + g_work g < 2 ^ 32 ->
  let t := g_end g + g_frame g + g_work g in
  t <= memory_pages g * 65536 /\ (0 < t -> (memory_pages g - 1) * 65536 < t).
Proof.
  intros H1 H2 H3 H4. cbv zeta. change (2 ^ 32) with m32 in *. unfold memory_pages.
  rewrite (Z.mod_small (g_frame g)) by lia. rewrite (Z.mod_small (g_end g + g_frame g)) by lia. rewrite Z.mod_small by lia.
  set (t := g_end g + g_frame g + g_work g) in *. clearbody t.
  pose proof (Z.div_mod t 65536 ltac:(lia)). pose proof (Z.mod_pos_bound t 65536 ltac:(lia)).
  destruct (0 <? t mod 65536) eqn:Hr; lia.
Qed.

Lemma instance_holds g done o bs : ginv g done -> 0 <= g_frame g -> 0 <= g_work g ->
  g_end g + g_frame g + g_work g < 2 ^ 32 -> In (o, bs) (std_data ++ g_segs g) -> holds (instance_mem g) o bs.
Proof.
  intros I Hf Hw Hsz Hi. pose proof I as [I1 I2 I3 I4 I5 I6]. unfold end_of_standard_data in I2.
  destruct (pages_cover g) as [HP1 HP2]; try lia. cbv zeta in HP1, HP2.
  unfold instance_mem, init_mem.
  eapply init_holds with (lo := 0) (hi := g_end g); cbn [msize]; try lia; auto.
  - eapply sorted_app; [apply std_data_sorted|exact I1].
  - apply Forall_app. split; [apply std_data_ok|auto].
Qed.
