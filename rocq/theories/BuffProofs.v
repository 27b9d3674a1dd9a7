(** * Proofs about byte-sequence comparison. *)
From Coq Require Import ZArith String List Bool Lia.
Import ListNotations.
From Verif Require Import Wasm Std StdEnv WasmLogic WasmTac Spec ZBits Mem ArithProofs.
Open Scope Z_scope.

(** difference of the first differing bytes (0 if one is a prefix of the other) *)
Fixpoint first_diff (xs ys : list Z) : Z :=
  match xs, ys with
  | x :: xs, y :: ys => if x =? y then first_diff xs ys else x - y
  | _, _ => 0
  end.

Definition buff_prefix : instr :=
  Block 0 0 [
    LGet 1; LGet 3; LGet 1; LGet 3; R32 LtU; Select; LTee 4; Eqz32; BrIf 0;
    Loop 0 0 [
      LGet 0; Load L32_8u 0; LGet 2; Load L32_8u 0; B32 Sub; LTee 5; Eqz32;
      If 0 0 [
        LGet 0; Const (VI32 1); B32 Add; LSet 0; LGet 2; Const (VI32 1); B32 Add; LSet 2; LGet 4;
        Const (VI32 1); B32 Sub; LTee 4; BrIf 1
      ] [
      ]
    ]
  ].

Section Buff.
Context {HS : Type} (E : env HS) (HE : has_std E).
Implicit Types (st : store HS) (R : result HS -> Prop).
Ltac wfin := unfold qcall, qblock, qfunc; wcbn.

Lemma buff_prefix_wp xs ys oa ob st is Q :
  holds (smem st) oa xs -> holds (smem st) ob ys ->
  (forall oa' ob' i', wp E is (mkcfg [VI32 oa'; VI32 (Z.of_nat (length xs)); VI32 ob'; VI32 (Z.of_nat (length ys)); VI32 i'; VI32 (first_diff xs ys mod m32)] [] st) Q) ->
  wp E (buff_prefix :: is)
    (mkcfg [VI32 oa; VI32 (Z.of_nat (length xs)); VI32 ob; VI32 (Z.of_nat (length ys)); VI32 0; VI32 0] [] st) Q.
Proof.
  intros HX HY HQ. unfold buff_prefix. apply wp_block. wcbn. wpure.
  set (lx := Z.of_nat (length xs)) in *. set (ly := Z.of_nat (length ys)) in *.
  assert (Hm : (if b2z (lx <? ly) =? 0 then ly else lx) = Z.min lx ly).
  { rewrite b2z_eq0. destruct (Z.ltb_spec lx ly); cbn [negb]; lia. }
  rewrite Hm. apply wp_brif_eqz; intros Hz.
  2: { wfin. assert (Hf : first_diff xs ys = 0).
    { destruct xs, ys; try reflexivity. subst lx ly. cbn [length] in *.
      rewrite !Nat2Z.inj_succ in Hz. rewrite (proj2 (Z.eqb_neq _ _)) in Hz by lia. contradiction. }
    specialize (HQ oa ob (Z.min lx ly)). rewrite Hf in HQ. exact HQ. }
  assert (Hz' : Z.min lx ly <> 0) by (intros Hn; rewrite Hn in Hz; discriminate). clear Hz.
  eapply wp_loop0 with (z := Z.min lx ly)
    (I := fun z s => exists xs' ys' oa' ob' sb',
       s = mkcfg [VI32 oa'; VI32 lx; VI32 ob'; VI32 ly; VI32 z; VI32 sb'] [] st /\
       first_diff xs' ys' = first_diff xs ys /\
       z = Z.min (Z.of_nat (length xs')) (Z.of_nat (length ys')) /\ z <> 0 /\
       holds (smem st) oa' xs' /\ holds (smem st) ob' ys').
  - subst lx ly; lia.
  - exists xs, ys, oa, ob, 0. repeat (split; [solve [auto]|]). auto.
  - clear oa ob HX HY Hz' Hm. intros z ls st' Hz (xs' & ys' & oa & ob & sb & Hs & Hd & Hz2 & Hnz & HX & HY).
    injection Hs as -> ->.
    destruct xs' as [|x xs']; [simpl in *; lia|]. destruct ys' as [|y ys']; [simpl in *; lia|].
    cbn [length] in Hz2. rewrite !Nat2Z.inj_succ in Hz2.
    apply holds_cons in HX as (Hx1 & Hx2 & Hx3 & Hx4 & Hx5 & Hx).
    apply holds_cons in HY as (Hy1 & Hy2 & Hy3 & Hy4 & Hy5 & Hy).
    wpure. apply wp_load; [cbn; lia|]. wpure. apply wp_load; [cbn; lia|]. wpure.
    cbn [ldn ldbytes]. rewrite !Z.add_0_r, Hx1, Hy1. replace (x + 256 * 0) with x by lia. replace (y + 256 * 0) with y by lia.
    cbn [first_diff] in Hd.
    destruct (Z.eqb_spec x y) as [<-|Hne].
    + rewrite Z.sub_diag. cbn [Z.modulo Z.div_eucl]. change (0 mod m32) with 0.
      wif Hc; [|discriminate]. wpure.
      assert (Hd0 : (z - 1) mod m32 = z - 1). { apply Z.mod_small. destruct Hx as (? & ? & _). lia. }
      rewrite Hd0. apply wp_brif_eqz; intros Hz1.
      * wnil. wnil. wnil. assert (Hfd : first_diff xs ys = 0).
        { rewrite <- Hd. destruct xs', ys'; try reflexivity. cbn [length] in *. lia. }
        rewrite Hfd in HQ. apply HQ.
      * wfin. exists (z - 1). split; [lia|].
        exists xs', ys', (oa + 1), (ob + 1), 0.
        assert (B : oa + 1 < m32 /\ ob + 1 < m32).
        { destruct Hx as (? & ? & _); destruct Hy as (? & ? & _); destruct xs', ys'; cbn [length] in *; rewrite ?Nat2Z.inj_succ in *; lia. }
        rewrite !(Z.mod_small (_ + 1)) by lia. split; [reflexivity|]. split; [auto|]. split; [lia|]. auto.
    + assert (Hm : (x - y) mod m32 <> 0) by zlia.
      wif Hc; [lia|]. wnil. wnil. wnil. rewrite <- Hd in HQ. apply HQ.
Qed.

Ltac bcmp xs ys HX HY H :=
  wenter HE; fold buff_prefix; eapply (buff_prefix_wp xs ys); [exact HX|exact HY|];
  intros oa' ob' i'; wpure; wnil; rconv H.

Lemma first_diff_range m a b xs ys : holds m a xs -> holds m b ys -> -256 < first_diff xs ys < 256.
Proof.
  intros HX HY. apply holds_byte in HX. apply holds_byte in HY. revert ys HY.
  induction HX as [|x xs Hx HX IH]; intros ys HY; [simpl; lia|].
  inversion HY as [|y ys' Hy HY']; subst; [simpl; lia|]. cbn [first_diff].
  destruct (x =? y); [auto|lia].
Qed.

(** the four comparisons *)
Definition buff_res (o : relop) (xs ys : list Z) : bool :=
  if first_diff xs ys =? 0 then irel sgn32 o (Z.of_nat (length xs)) (Z.of_nat (length ys))
  else irel (fun x => x) o (first_diff xs ys) 0.

Lemma sel_b2z (b1 b2 c : bool) : (if c then b2z b1 else b2z b2) = b2z (if c then b1 else b2).
Proof. destruct c; reflexivity. Qed.

Ltac bfin xs ys :=
  unfold buff_res, irel, sgn32; set (d := first_diff xs ys) in *;
  destruct (Z.eqb_spec d 0) as [->|]; [reflexivity|];
  destruct (Z.eqb_spec (d mod m32) 0); [zlia|];
  change (0 <? h32) with true; cbv iota; unfold b2z;
  destruct (Z.ltb_spec (d mod m32) h32);
  repeat match goal with
  | |- context [?a <? ?b] => destruct (Z.ltb_spec a b)
  | |- context [?a <=? ?b] => destruct (Z.leb_spec a b)
  end; try reflexivity; exfalso; zlia.

Lemma lt_buff_wp xs ys oa ob st R : holds (smem st) oa xs -> holds (smem st) ob ys ->
  R (RVals (vbool (buff_res LtU xs ys)) st) ->
  wpf E "stdlib.lt-buff" [VI32 oa; vlen xs; VI32 ob; vlen ys] st R.
Proof.
  intros HX HY H. bcmp xs ys HX HY H. pose proof (first_diff_range _ _ _ _ _ HX HY) as Hr.
  bfin xs ys.
Qed.

Lemma gt_buff_wp xs ys oa ob st R : holds (smem st) oa xs -> holds (smem st) ob ys ->
  R (RVals (vbool (buff_res GtU xs ys)) st) ->
  wpf E "stdlib.gt-buff" [VI32 oa; vlen xs; VI32 ob; vlen ys] st R.
Proof.
  intros HX HY H. bcmp xs ys HX HY H. pose proof (first_diff_range _ _ _ _ _ HX HY) as Hr.
  bfin xs ys.
Qed.

Lemma le_buff_wp xs ys oa ob st R : holds (smem st) oa xs -> holds (smem st) ob ys ->
  R (RVals (vbool (buff_res LeU xs ys)) st) ->
  wpf E "stdlib.le-buff" [VI32 oa; vlen xs; VI32 ob; vlen ys] st R.
Proof.
  intros HX HY H. bcmp xs ys HX HY H. pose proof (first_diff_range _ _ _ _ _ HX HY) as Hr.
  bfin xs ys.
Qed.

Lemma ge_buff_wp xs ys oa ob st R : holds (smem st) oa xs -> holds (smem st) ob ys ->
  R (RVals (vbool (buff_res GeU xs ys)) st) ->
  wpf E "stdlib.ge-buff" [VI32 oa; vlen xs; VI32 ob; vlen ys] st R.
Proof.
  intros HX HY H. bcmp xs ys HX HY H. pose proof (first_diff_range _ _ _ _ _ HX HY) as Hr.
  bfin xs ys.
Qed.
End Buff.
