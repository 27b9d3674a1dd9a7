(** * STX (proof support) *)
From Coq Require Import ZArith String List Bool Lia.
Import ListNotations.
From Verif Require Import Wasm StdEnv Bytes Clar Codec Ledger Stx SpecStx.
Open Scope Z_scope.

Definition sound (a : acct) : Prop := 0 <= a_free a /\ 0 <= a_lock a /\ (a_pox a = 0%nat -> a_lock a = 0) /\ 0 <= a_until a < 2 ^ 64.
Lemma ended_iff x a : a_pox a <> 0%nat -> lock_ended x a <-> unlock_height x a <= x_height x.
Proof. intros H. unfold lock_ended, unlock_height. destruct (a_pox a) as [|[|[|[|n]]]]; [congruence|lia..]. Qed.
Lemma ended_dec x a : {lock_ended x a} + {~ lock_ended x a}.
Proof.
  destruct (Nat.eq_dec (a_pox a) 0) as [H|H].
  - left. unfold lock_ended. rewrite H. right. exact I.
  - destruct (Z_le_gt_dec (unlock_height x a) (x_height x)); [left|right]; rewrite (ended_iff x a H); lia.
Qed.
Lemma spendable_is x p n : sound (x_acct x p) -> spendable x p n <-> n = available x (x_acct x p).
Proof.
  intros (_ & _ & H0 & _). unfold spendable. cbv zeta. set (a := x_acct x p) in *. unfold available, canonical, unlockable.
  destruct (Nat.eq_dec (a_pox a) 0) as [Hp|Hp].
  - assert (E : lock_ended x a) by (unfold lock_ended; rewrite Hp; right; exact I). rewrite Hp. specialize (H0 Hp). split; [intros (H & _); specialize (H E); lia|intros ->; split; [lia|tauto]].
  - pose proof (ended_iff x a Hp) as K. assert (E : match a_pox a with 0%nat => false | S _ => negb (a_lock a =? 0) && (unlock_height x a <=? x_height x) end = negb (a_lock a =? 0) && (unlock_height x a <=? x_height x)) by (destruct (a_pox a); [congruence|reflexivity]). rewrite E.
    destruct (Z.eqb_spec (a_lock a) 0) as [Hl|Hl]; cbn [negb andb].
    + destruct (ended_dec x a) as [D|D]; (split; [intros (A & B); auto|intros ->; split; intros; lia]); [specialize (A D); lia].
    + destruct (Z.leb_spec (unlock_height x a) (x_height x)) as [D|D]; cbn [a_free]; (split; [intros (A & B)|intros ->; split; intros]); try (apply K in H; lia); try lia; [apply A, K; exact D|exfalso; apply H, K; exact D|apply B; intros Q; apply K in Q; lia].
Qed.
Lemma canonical_sound x a : sound a -> sound (canonical x a) /\ a_free (canonical x a) + a_lock (canonical x a) = a_free a + a_lock a /\ a_free a <= available x a.
Proof.
  intros (H1 & H2 & H3 & H4). unfold available, canonical. destruct (unlockable x a); cbn; [|unfold sound; repeat split; try assumption; lia].
  unfold sound. cbn. repeat split; lia.
Qed.
Definition same_heights (x x' : sctx) : Prop := x_height x' = x_height x /\ x_v1 x' = x_v1 x /\ x_v2 x' = x_v2 x /\ x_v3 x' = x_v3 x.
Lemma available_heights x x' a : same_heights x x' -> available x' a = available x a.
Proof. intros (H1 & H2 & H3 & H4). unfold available, canonical, unlockable, unlock_height. rewrite H1, H2, H3, H4. reflexivity. Qed.
Lemma debit_ok x a n a' : sound a -> 0 <= n -> debit x a n = Some a' ->
  sound a' /\ a_free a' + a_lock a' = a_free a + a_lock a - n /\ available x a' = available x a - n /\ n <= available x a.
Proof.
  intros Ha Hn H. destruct (canonical_sound x a Ha) as (C1 & C2 & _). unfold debit in H. destruct (Z.leb_spec n (a_free (canonical x a))) as [D|]; [|discriminate]. injection H as <-.
  split; [unfold sound in *; cbn; repeat split; lia || tauto|]. cbn [a_free a_lock]. split; [lia|]. split; [|exact D].
  unfold available in *. unfold canonical. destruct (unlockable x a) eqn:E.
  - unfold unlockable. cbn. reflexivity.
  - unfold unlockable, unlock_height in *. cbn [a_pox a_lock a_until] in *. rewrite E. reflexivity.
Qed.
Lemma credit_ok x a n a' : sound a -> 0 <= n -> credit a n = Some a' ->
  sound a' /\ a_free a' + a_lock a' = a_free a + a_lock a + n /\ available x a' = available x a + n.
Proof.
  intros Ha Hn H. unfold credit in H. destruct (_ <? _); [|discriminate]. injection H as <-. split; [unfold sound in *; cbn; repeat split; lia || tauto|]. cbn [a_free a_lock]. split; [lia|].
  unfold available, canonical. assert (E : unlockable x (mkacct (a_free a + n) (a_lock a) (a_until a) (a_pox a)) = unlockable x a) by reflexivity. rewrite E. destruct (unlockable x a); cbn [a_free a_lock]; lia.
Qed.
Lemma pupd_same {A} (f : prin -> A) p a : pupd f p a p = a.
Proof. unfold pupd. destruct (prin_eq_dec p p); congruence. Qed.
Lemma pupd_other {A} (f : prin -> A) p a q : q <> p -> pupd f p a q = f q.
Proof. unfold pupd. destruct (prin_eq_dec q p); congruence. Qed.

(** ** Sums *)
Lemma covers_in x ps p : covers x ps -> exists ps', covers x ps' /\ incl ps ps' /\ In p ps' /\ all_stx x ps' = all_stx x ps.
Proof.
  intros (H1 & H2). destruct (in_dec prin_eq_dec p ps) as [Hin|Hin]; [exists ps; repeat split; auto; apply incl_refl|].
  exists (p :: ps). split; [split; [constructor; assumption|]|]. { intros q Hq. apply H2. intros K. apply Hq. right. exact K. }
  split; [apply incl_tl, incl_refl|]. split; [left; reflexivity|]. change (holds_stx x p + all_stx x ps = all_stx x ps). rewrite (H2 p Hin). lia.
Qed.
Lemma all_change x x' ps (d : prin -> Z) : (forall p, In p ps -> holds_stx x' p = holds_stx x p + d p) ->
  all_stx x' ps = all_stx x ps + fold_right (fun p n => d p + n) 0 ps.
Proof.
  induction ps as [|p ps IH]; intros H; [cbn; lia|]. change (holds_stx x' p + all_stx x' ps = holds_stx x p + all_stx x ps + (d p + fold_right (fun p n => d p + n) 0 ps)).
  rewrite (H p) by (left; reflexivity). rewrite IH by (intros q Hq; apply H; right; exact Hq). lia.
Qed.
Lemma delta_one ps q n : NoDup ps -> In q ps -> fold_right (fun p s => (if prin_eq_dec p q then n else 0) + s) 0 ps = n.
Proof.
  assert (Z0 : forall ps, ~ In q ps -> fold_right (fun p s => (if prin_eq_dec p q then n else 0) + s) 0 ps = 0).
  { clear. induction ps as [|p ps IH]; cbn; intros H; [reflexivity|]. destruct (prin_eq_dec p q) as [->|]; [exfalso; auto|]. rewrite IH by auto. reflexivity. }
  induction 1 as [|p ps Hn H IH]; cbn; intros Hin; [contradiction|]. destruct (prin_eq_dec p q) as [->|Hne]; [rewrite Z0 by exact Hn; lia|]. rewrite IH; [lia|]. destruct Hin; [congruence|assumption].
Qed.
Lemma delta_all e ps : NoDup ps -> (forall p, (p = payer e \/ match e with EvSend _ r _ _ => p = r | _ => False end) -> In p ps) ->
  fold_right (fun p n => delta e p + n) 0 ps = - burnt e.
Proof.
  intros Hnd Hin. destruct e as [q n|q r n memo]; cbn [delta burnt payer] in *.
  - rewrite (delta_one ps q (- n)) by auto. reflexivity.
  - assert (S : forall (a b : prin -> Z) (l : list prin), fold_right (fun p s => (a p + b p) + s) 0 l = fold_right (fun p s => a p + s) 0 l + fold_right (fun p s => b p + s) 0 l) by (clear; induction l as [|p l IH]; cbn; [reflexivity|lia]).
    specialize (S (fun p => if prin_eq_dec p q then - n else 0) (fun p => if prin_eq_dec p r then n else 0) ps). cbv beta in S. rewrite S.
    rewrite (delta_one ps q (- n)) by auto. rewrite (delta_one ps r n) by auto. cbn. lia.
Qed.
Lemma covers_after x x' e ps : happened x x' e -> covers x ps -> exists ps', covers x' ps' /\ incl ps ps' /\ all_stx x' ps' = all_stx x ps - burnt e.
Proof.
  intros H Hc. destruct (covers_in x ps (payer e) Hc) as (ps1 & C1 & I1 & P1 & S1).
  set (r := match e with EvSend _ r _ _ => r | _ => payer e end). destruct (covers_in x ps1 r C1) as (ps2 & C2 & I2 & P2 & S2).
  exists ps2. split; [|split; [eapply incl_tran; eassumption|]].
  - split; [apply C2|]. intros p Hp. rewrite (ha_hold _ _ _ H p), (proj2 C2 p Hp). assert (Hq : p <> payer e) by (intros ->; apply Hp, I2, P1). assert (Hr : p <> r) by (intros ->; auto).
    unfold r in Hr. destruct e; cbn [delta payer] in *; repeat (destruct (prin_eq_dec _ _); [congruence|]); reflexivity.
  - rewrite (all_change x x' ps2 (delta e)) by (intros p _; apply (ha_hold _ _ _ H)). rewrite S2, S1. rewrite (delta_all e); [lia|apply C2|].
    intros p [->|K]; [apply I2, P1|]. unfold r in P2. destruct e; [contradiction|]. subst p. exact P2.
Qed.
Lemma all_cons x p ps : all_stx x (p :: ps) = holds_stx x p + all_stx x ps. Proof. reflexivity. Qed.
Lemma all_pos x ps : (forall q, 0 <= holds_stx x q) -> 0 <= all_stx x ps.
Proof. intros H. induction ps as [|p ps IH]; [cbn; lia|]. rewrite all_cons. specialize (H p). lia. Qed.
Lemma in_all x ps p : (forall q, 0 <= holds_stx x q) -> In p ps -> holds_stx x p <= all_stx x ps.
Proof.
  intros H0. induction ps as [|q ps IH]; intros Hin; [contradiction|]. rewrite all_cons. pose proof (all_pos x ps H0). pose proof (H0 q). destruct Hin as [->|Hin]; [lia|]. specialize (IH Hin). lia.
Qed.
Lemma two_all x ps p q : (forall q, 0 <= holds_stx x q) -> covers x ps -> p <> q -> holds_stx x p + holds_stx x q <= all_stx x ps.
Proof.
  intros H0 Hc Hne. destruct (covers_in x ps p Hc) as (ps1 & C1 & _ & P1 & <-). destruct (covers_in x ps1 q C1) as (ps2 & C2 & I2 & P2 & <-). apply I2 in P1. clear - H0 Hne P1 P2.
  induction ps2 as [|r ps IH]; [contradiction|]. rewrite all_cons.
  destruct P1 as [->|P1]; destruct P2 as [->|P2]; [congruence| | |].
  - pose proof (in_all x ps q H0 P2). lia.
  - pose proof (in_all x ps p H0 P1). lia.
  - specialize (IH P1 P2). specialize (H0 r). lia.
Qed.

(** ** The operations *)
Lemma sound_at x p : stx_ok x -> sound (x_acct x p).
Proof. intros [H _ _]. exact (H p). Qed.
Lemma hold_pos x q : stx_ok x -> 0 <= holds_stx x q.
Proof. intros H. pose proof (sound_at x q H) as (H1 & H2 & _). unfold holds_stx. lia. Qed.
Lemma ok_memory x m : stx_ok x -> stx_ok (x_with_memory x m).
Proof. intros [H1 H2 H3]. split; [exact H1|exact H2|exact H3]. Qed.
Lemma ok_after x x' e : stx_ok x -> happened x x' e -> (forall p, sound (x_acct x' p)) -> stx_ok x'.
Proof.
  intros [H1 H2 (ps & H3 & H4)] H Hs. split; [exact Hs| |].
  - destruct (ha_rest _ _ _ H) as (_ & _ & -> & -> & ->). exact H2.
  - destruct (covers_after _ _ _ _ H H3) as (ps' & C & _ & Hsum). exists ps'. split; [exact C|]. rewrite Hsum, (ha_liquid _ _ _ H). pose proof (proj2 (ha_payer _ _ _ H)) as Hp. destruct e; cbn [burnt amount_of] in *; lia.
Qed.

Definition did_stx (x x' : sctx) (ws : list val) (ans : value) (e : stx_event) : Prop :=
  (ws = ok_true /\ ans = COk (CBool true) /\ happened x x' e) \/
  (exists c, 1 <= c <= 4 /\ ws = err_code c /\ ans = CErr (CUInt c) /\ nothing x x').
Lemma sender_is x p : (match x_sender x with Some q => if prin_eq_dec p q then true else false | None => false end) = true <-> x_sender x = Some p.
Proof. destruct (x_sender x) as [q|]; [destruct (prin_eq_dec p q)|]; split; congruence. Qed.
Lemma spent x n m : x_with_memory (x_with_memory x n) m = x_with_memory x m. Proof. reflexivity. Qed.
Lemma avail_memory x m a : available (x_with_memory x m) a = available x a.
Proof. apply available_heights. repeat split. Qed.
Lemma debit_memory x m a n : debit (x_with_memory x m) a n = debit x a n.
Proof. reflexivity. Qed.

(** one account changed *)
Lemma spend_one x x' p d : same_heights x x' -> sound (x_acct x p) -> sound (x_acct x' p) -> available x (x_acct x' p) = available x (x_acct x p) + d ->
  forall n, spendable x p n -> spendable x' p (n + d).
Proof. intros Hh H1 H2 H n Hn. apply spendable_is in Hn; [|exact H1]. apply spendable_is; [exact H2|]. rewrite (available_heights x x' _ Hh), H. lia. Qed.

Lemma op_burn_spec x amt p : stx_ok x -> 0 <= amt < 2 ^ 128 ->
  match op_stx_burn amt p x with
  | SErr _ => amt <> 0 /\ x_sender x = Some p /\ (x_memory x < 188 \/ 2 ^ 128 <= x_burned x p + amt)
  | SOk ws x' => exists ans, answers_burn x amt p ans /\ stx_ok x' /\ did_stx x x' ws ans (EvBurn p amt)
  end.
Proof.
  intros Hok Ha. unfold op_stx_burn. destruct (Z.eqb_spec amt 0) as [->|H0].
  { exists (CErr (CUInt 3)). split; [repeat split; congruence|]. split; [exact Hok|]. right. exists 3. split; [lia|]. split; [reflexivity|]. split; [reflexivity|]. exists (x_memory x). destruct x; reflexivity. }
  destruct (match x_sender x with Some q => if prin_eq_dec p q then true else false | None => false end) eqn:Es; cbn [negb].
  2:{ assert (Hns : x_sender x <> Some p) by (intros K; apply sender_is in K; congruence).
    exists (CErr (CUInt 4)). split; [repeat split; congruence|]. split; [exact Hok|]. right. exists 4. split; [lia|]. split; [reflexivity|]. split; [reflexivity|]. exists (x_memory x). destruct x; reflexivity. }
  apply sender_is in Es. unfold charge, sz_prin, sz_acct. destruct (Z.leb_spec 148 (x_memory x)) as [M1|M1]; [|split; [exact H0|split; [exact Es|left; lia]]].
  set (x1 := x_with_memory x (x_memory x - 148)). change (x_memory x1) with (x_memory x - 148). destruct (Z.leb_spec 40 (x_memory x - 148)) as [M2|M2]; [|split; [exact H0|split; [exact Es|left; lia]]].
  set (x2 := x_with_memory x1 (x_memory x - 148 - 40)). change (x_acct x2) with (x_acct x). change (available x2) with (available x). change (debit x2) with (debit x).
  pose proof (sound_at x p Hok) as Sp. pose proof (spendable_is x p (available x (x_acct x p)) Sp) as AV.
  assert (AN : forall n, spendable x p n -> n = available x (x_acct x p)) by (intros n K; apply (spendable_is x p n Sp), K).
  destruct (Z.leb_spec amt (available x (x_acct x p))) as [HL|HL]; cbn [negb].
  2:{ exists (CErr (CUInt 1)). split. { split; [congruence|]. split; [congruence|]. intros _ _ n K. apply AN in K. split; [reflexivity|lia]. }
    split; [apply ok_memory, ok_memory, Hok|]. right. exists 1. split; [lia|]. split; [reflexivity|]. split; [reflexivity|]. exists (x_memory x - 148 - 40). reflexivity. }
  destruct (debit x (x_acct x p) amt) as [a|] eqn:Hd.
  2:{ exfalso. unfold debit in Hd. fold (available x (x_acct x p)) in Hd. destruct (Z.leb_spec amt (available x (x_acct x p))); [discriminate|lia]. }
  cbn [s_bind]. destruct (debit_ok _ _ _ _ Sp (proj1 Ha) Hd) as (D1 & D2 & D3 & D4).
  assert (HLiq : amt <= x_liquid x).
  { destruct (so_all x Hok) as (ps & Hc & Hs & _). destruct (covers_in x ps p Hc) as (ps1 & C1 & _ & P1 & S1). pose proof (in_all x ps1 p (fun q => hold_pos x q Hok) P1) as K. destruct D1 as (D11 & D12 & _). unfold holds_stx in K. lia. }
  change (x_liquid (x_with_acct x2 p a)) with (x_liquid x). destruct (Z.leb_spec amt (x_liquid x)); [|lia].
  change (x_burned _ p) with (x_burned x p). destruct (Z.ltb_spec (x_burned x p + amt) (2 ^ 128)) as [HB|HB]; [|split; [exact H0|split; [exact Es|right; lia]]].
  match goal with |- exists ans, _ /\ stx_ok ?y /\ _ => set (x' := y) end.
  assert (Acc : forall q, x_acct x' q = if prin_eq_dec q p then a else x_acct x q) by (intros q; reflexivity).
  assert (HA : happened x x' (EvBurn p amt)).
  { split.
    - split; [exact Es|cbn; lia].
    - reflexivity.
    - intros q. unfold holds_stx. rewrite Acc. cbn [delta]. destruct (prin_eq_dec q p) as [->|]; lia.
    - intros q n. apply spend_one; [repeat split|apply sound_at; exact Hok| |]; rewrite Acc; cbn [delta]; (destruct (prin_eq_dec q p) as [->|]; [first [exact D1|lia]|first [apply sound_at; exact Hok|lia]]).
    - reflexivity.
    - intros q. cbn. lia.
    - intros q. change (x_burned x' q) with (pupd (x_burned x) p (x_burned x p + amt) q). unfold pupd. destruct (prin_eq_dec q p) as [->|]; lia.
    - repeat split. }
  exists (COk (CBool true)). split. { split; [congruence|]. split; [congruence|]. intros _ _ n K. apply AN in K. split; [lia|reflexivity]. }
  split; [|left; auto]. eapply ok_after; [exact Hok|exact HA|]. intros q. rewrite Acc. destruct (prin_eq_dec q p); [exact D1|apply sound_at; exact Hok].
Qed.

Lemma op_transfer_spec x amt p q memo : stx_ok x -> 0 <= amt < 2 ^ 128 ->
  match op_stx_transfer amt p q memo x with
  | SErr _ => amt <> 0 /\ p <> q /\ x_sender x = Some p /\ (x_memory x < 376 \/ 2 ^ 128 <= x_sent x p + amt)
  | SOk ws x' => exists ans, answers_transfer x amt p q ans /\ stx_ok x' /\ did_stx x x' ws ans (EvSend p q amt memo)
  end.
Proof.
  intros Hok Ha. unfold op_stx_transfer. destruct (Z.eqb_spec amt 0) as [->|H0].
  { exists (CErr (CUInt 3)). split; [repeat split; congruence|]. split; [exact Hok|]. right. exists 3. split; [lia|]. split; [reflexivity|]. split; [reflexivity|]. exists (x_memory x). destruct x; reflexivity. }
  destruct (prin_eq_dec p q) as [->|Hpq].
  { exists (CErr (CUInt 2)). split; [repeat split; congruence|]. split; [exact Hok|]. right. exists 2. split; [lia|]. split; [reflexivity|]. split; [reflexivity|]. exists (x_memory x). destruct x; reflexivity. }
  destruct (match x_sender x with Some q => if prin_eq_dec p q then true else false | None => false end) eqn:Es; cbn [negb].
  2:{ assert (Hns : x_sender x <> Some p) by (intros K; apply sender_is in K; congruence).
    exists (CErr (CUInt 4)). split; [repeat split; congruence|]. split; [exact Hok|]. right. exists 4. split; [lia|]. split; [reflexivity|]. split; [reflexivity|]. exists (x_memory x). destruct x; reflexivity. }
  apply sender_is in Es.
  assert (ERR : amt <> 0 /\ p <> q /\ x_sender x = Some p) by auto.
  unfold charge, sz_prin, sz_acct. destruct (Z.leb_spec 148 (x_memory x)) as [M1|M1]; [|intuition lia].
  cbn [x_with_memory x_memory]. destruct (Z.leb_spec 148 (x_memory x - 148)) as [M2|M2]; [|intuition lia].
  destruct (Z.leb_spec 40 (x_memory x - 148 - 148)) as [M3|M3]; [|intuition lia].
  destruct (Z.leb_spec 40 (x_memory x - 148 - 148 - 40)) as [M4|M4]; [|intuition lia].
  match goal with |- context [available ?y _] => set (x2 := y) end. change (x_acct x2) with (x_acct x). change (available x2) with (available x). change (debit x2) with (debit x).
  pose proof (sound_at x p Hok) as Sp. pose proof (sound_at x q Hok) as Sq.
  assert (AN : forall n, spendable x p n -> n = available x (x_acct x p)) by (intros n K; apply (spendable_is x p n Sp), K).
  destruct (Z.leb_spec amt (available x (x_acct x p))) as [HL|HL]; cbn [negb].
  2:{ exists (CErr (CUInt 1)). split. { split; [congruence|]. split; [congruence|]. split; [congruence|]. intros _ _ _ n K. apply AN in K. split; [reflexivity|lia]. }
    split; [apply (ok_memory x), Hok|]. right. exists 1. split; [lia|]. split; [reflexivity|]. split; [reflexivity|]. eexists. reflexivity. }
  destruct (debit x (x_acct x p) amt) as [a|] eqn:Hd.
  2:{ exfalso. unfold debit in Hd. fold (available x (x_acct x p)) in Hd. destruct (Z.leb_spec amt (available x (x_acct x p))); [discriminate|lia]. }
  destruct (debit_ok _ _ _ _ Sp (proj1 Ha) Hd) as (D1 & D2 & D3 & D4).
  destruct (credit (x_acct x q) amt) as [b|] eqn:Hc.
  2:{ exfalso. unfold credit in Hc. destruct (Z.ltb_spec (a_free (x_acct x q) + amt) (2 ^ 128)) as [|K]; [discriminate|].
    destruct (so_all x Hok) as (ps & Hcov & Hs). pose proof (two_all x ps p q (fun r => hold_pos x r Hok) Hcov Hpq) as K2. unfold holds_stx in K2. destruct D1 as (D11 & D12 & _). destruct Sq as (_ & Sq2 & _). lia. }
  destruct (credit_ok x _ _ _ Sq (proj1 Ha) Hc) as (C1 & C2 & C3).
  cbn [s_bind]. change (x_sent (x_with_acct (x_with_acct x2 q b) p a) p) with (x_sent x p). destruct (Z.ltb_spec (x_sent x p + amt) (2 ^ 128)) as [HB|HB]; [|intuition lia].
  match goal with |- exists ans, _ /\ stx_ok ?y /\ _ => set (x' := y) end.
  assert (Acc : forall r, x_acct x' r = if prin_eq_dec r p then a else if prin_eq_dec r q then b else x_acct x r) by (intros r; reflexivity).
  assert (HA : happened x x' (EvSend p q amt memo)).
  { split.
    - split; [exact Es|cbn; lia].
    - reflexivity.
    - intros r. unfold holds_stx. rewrite Acc. cbn [delta]. destruct (prin_eq_dec r p) as [->|]; destruct (prin_eq_dec _ q) as [->|]; congruence || lia.
    - intros r n. apply spend_one; [repeat split|apply sound_at; exact Hok| |]; rewrite Acc; cbn [delta]; (destruct (prin_eq_dec r p) as [->|]; [destruct (prin_eq_dec p q); [congruence|first [exact D1|lia]]|destruct (prin_eq_dec r q) as [->|]; [first [exact C1|lia]|first [apply sound_at; exact Hok|lia]]]).
    - cbn. lia.
    - intros r. change (x_sent x' r) with (pupd (x_sent x) p (x_sent x p + amt) r). unfold pupd. destruct (prin_eq_dec r p) as [->|]; lia.
    - intros r. cbn. lia.
    - repeat split. }
  exists (COk (CBool true)). split. { split; [congruence|]. split; [congruence|]. split; [congruence|]. intros _ _ _ n K. apply AN in K. split; [lia|reflexivity]. }
  split; [|left; auto]. eapply ok_after; [exact Hok|exact HA|]. intros r. rewrite Acc. destruct (prin_eq_dec r p); [exact D1|]. destruct (prin_eq_dec r q); [exact C1|apply sound_at; exact Hok].
Qed.
