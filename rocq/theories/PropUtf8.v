(** * Property C21: UTF-8 conversions.
    In memory a string-utf8 is a sequence of 4-byte big-endian scalar values ([utf8_mem]). *)
From Coq Require Import ZArith String List Bool Lia.
Import ListNotations.
From Verif Require Import Wasm Std StdEnv WasmLogic WasmTac Spec SpecBytes SpecUtf8 Mem MemFacts NameProofs Utf8Proofs Utf8Dec.
Open Scope string_scope.
Open Scope list_scope.
Open Scope Z_scope.

Definition disjoint (a n b k : Z) : Prop := a + n <= b \/ b + k <= a.

(** ** scalars to UTF-8 *)
Theorem C21_convert_scalars : forall {HS} (E : env HS), has_std E -> forall a cs o st,
  Forall scalar cs -> holds (smem st) a (utf8_mem cs) -> 0 <= o -> 
  o + Z.of_nat (length (utf8 cs)) <= msize (smem st) -> msize (smem st) < 2 ^ 32 ->
  disjoint a (4 * Z.of_nat (length cs)) o (Z.of_nat (length (utf8 cs))) ->
  exists m', calls E "stdlib.convert-scalars-to-utf8" [VI32 a; VI32 (4 * Z.of_nat (length cs)); VI32 o] st
               (RVals [vlen (utf8 cs)] (with_mem st m')) /\
    holds m' o (utf8 cs) /\ only_changes (smem st) m' o (Z.of_nat (length (utf8 cs))).
Proof.
  intros HS E HE a cs o st Hs H Ho Hr Hms Hd. change (2 ^ 32) with m32 in Hms. pose proof (holds_len _ _ _ H) as (H1 & H2 & _). rewrite len4 in H2.
  assert (HF : Forall in_utf8 cs) by (eapply Forall_impl; [apply scalar_in|exact Hs]).
  exists (write_bytes (smem st) o (utf8 cs)). split; [|split].
  - apply wpf_calls. apply (convert_scalars_wp E HE); auto; lia.
  - split; [lia|]. rewrite msize_write. split; [split; [lia|change (2^32) with m32; lia]|]. apply bytes_at_write, utf8_bytes. exact HF.
  - apply only_write.
Qed.
Print Assumptions C21_convert_scalars.

(** ** UTF-8 to scalars: accepted input *)
Theorem C21_utf8_accepts : forall {HS} (E : env HS), has_std E -> forall a bs cs o maxlen st,
  utf8_of bs cs -> Z.of_nat (length cs) <= maxlen ->
  holds (smem st) a bs -> 0 <= o -> o + 4 * maxlen <= msize (smem st) -> msize (smem st) < 2 ^ 32 ->
  disjoint a (Z.of_nat (length bs)) o (4 * maxlen) ->
  exists m', calls E "stdlib.utf8-to-string-utf8" [VI32 a; vlen bs; VI32 o; VI32 maxlen] st
               (RVals [VI32 1; VI32 o; VI32 (4 * Z.of_nat (length cs))] (with_mem st m')) /\
    holds m' o (utf8_mem cs) /\ only_changes (smem st) m' o (4 * Z.of_nat (length cs)).
Proof.
  intros HS E HE a bs cs o maxlen st Hu Hl HB Ho Hr Hms Hd. change (2 ^ 32) with m32 in Hms.
  set (Q := fun r => exists m', r = RVals [VI32 1; VI32 o; VI32 (4 * Z.of_nat (length cs))] (with_mem st m') /\
    holds m' o (utf8_mem cs) /\ only_changes (smem st) m' o (4 * Z.of_nat (length cs))).
  assert (W : wpf E "stdlib.utf8-to-string-utf8" [VI32 a; vlen bs; VI32 o; VI32 maxlen] st Q).
  { apply (utf8_to_string_utf8_wp E HE); auto; try lia; [left; eauto| |].
    - intros cs' m' H1 H2 H3.
      assert (cs' = cs).
      { destruct Hu as [Hu1 Hu2]. assert (K : utf8_of bs cs') by (destruct H1 as [[H1 _]|[-> ->]]; [exact H1|split; [constructor|reflexivity]]).
        destruct K as [K1 K2]. destruct (utf8_cancel cs' [] cs K1 Hu1) as (cs1 & -> & E1 & _); [constructor|rewrite app_nil_r; congruence|].
        destruct cs1 as [|c cs1]; [apply eq_sym, app_nil_r|]. rewrite utf8_cons in E1. pose proof (utf8_char_nat c). destruct (utf8_char c); [cbn in *; lia|discriminate]. }
      subst cs'. exists m'. split; [reflexivity|]. split; [|exact H2]. pose proof H2 as [H4 _]. split; [lia|]. rewrite H4, len4.
      split; [|exact H3]. change (2 ^ 32) with m32. lia.
    - intros m' _ H. destruct (H cs). split; auto. }
  destruct W as (f0 & r & Hc & m' & -> & HQ). exists m'. split; [|exact HQ]. exists f0. exact Hc.
Qed.
Print Assumptions C21_utf8_accepts.

(** ** UTF-8 to scalars: everything else is rejected *)
Definition utf8_rejects {HS} (E : env HS) (extra : Z -> Z -> mem -> Prop) : Prop := forall a bs o maxlen st,
  (forall cs, utf8_of bs cs -> maxlen < Z.of_nat (length cs)) ->
  holds (smem st) a bs -> 0 <= o -> 0 <= maxlen -> o + 4 * maxlen <= msize (smem st) -> msize (smem st) < 2 ^ 32 ->
  disjoint a (Z.of_nat (length bs)) o (4 * maxlen) -> extra a maxlen (smem st) ->
  exists m', calls E "stdlib.utf8-to-string-utf8" [VI32 a; vlen bs; VI32 o; VI32 maxlen] st
               (RVals [VI32 0; VI32 0; VI32 0] (with_mem st m')) /\
    only_changes (smem st) m' o (4 * maxlen).

(** partial: there must be 4 * maxlen readable bytes from the start of the input *)
Theorem C21_utf8_rejects_partial : forall {HS} (E : env HS), has_std E ->
  utf8_rejects E (fun a maxlen m => a + 4 * maxlen <= msize m).
Proof.
  intros HS E HE a bs o maxlen st Hu HB Ho Hm Hr Hms Hd Hx. change (2 ^ 32) with m32 in Hms.
  set (Q := fun r => exists m', r = RVals [VI32 0; VI32 0; VI32 0] (with_mem st m') /\ only_changes (smem st) m' o (4 * maxlen)).
  assert (W : wpf E "stdlib.utf8-to-string-utf8" [VI32 a; vlen bs; VI32 o; VI32 maxlen] st Q).
  { apply (utf8_to_string_utf8_wp E HE); auto; try lia.
    - intros cs m' H1 H2 H3. exfalso. destruct H1 as [[H1 H4]|[-> ->]].
      + specialize (Hu cs H1). lia.
      + specialize (Hu [] ltac:(split; [constructor|reflexivity])). cbn [length] in Hu. lia.
    - intros m' _ _ H. exists m'. auto. }
  destruct W as (f0 & r & Hc & m' & -> & HQ). exists m'. split; [|exact HQ]. exists f0. exact Hc.
Qed.
Print Assumptions C21_utf8_rejects_partial.

(** without it the statement is false: the truncated sequence [195] in the last byte of memory
    makes the code read past the end of memory and trap *)
Definition c21_end : store unit := with_mem blank_store (write_bytes (smem blank_store) 65535 [195]).
Theorem C21_utf8_rejects_refuted : ~ utf8_rejects (@std_env unit) (fun _ _ _ => True).
Proof.
  intros H. specialize (H 65535 [195] 3000 10 c21_end).
  destruct H as (m' & Hc & _).
  - intros cs [H1 H2]. exfalso. destruct cs as [|c [|c' cs]]; [discriminate| |].
    + rewrite utf8_cons in H2. cbn [utf8 flat_map] in H2. rewrite app_nil_r in H2. inversion H1 as [|? ? Hc _]; subst.
      unfold utf8_char, scalar in *. destruct (Z.ltb_spec c 128); [apply cons_inj in H2 as [H2 _]; lia|].
      destruct (c <? 2048), (c <? 65536); discriminate H2.
    + rewrite !utf8_cons in H2. pose proof (utf8_char_nat c). pose proof (utf8_char_nat c'). apply (f_equal (@length Z)) in H2.
      rewrite !app_length in H2. cbn [length] in H2. lia.
  - split; [vm_compute; discriminate|split; [split; vm_compute; discriminate|vm_compute; reflexivity]].
  - vm_compute; discriminate.
  - vm_compute; discriminate.
  - vm_compute; discriminate.
  - reflexivity.
  - right. vm_compute. discriminate.
  - exact I.
  - assert (W : calls std_env "stdlib.utf8-to-string-utf8" [VI32 65535; vlen [195]; VI32 3000; VI32 10] c21_end (RTrap TMem c21_end)).
    { apply (calls_compute _ 60); [vm_compute; reflexivity|discriminate]. }
    pose proof (calls_det _ _ _ _ _ _ Hc W) as C. discriminate C.
Qed.
Print Assumptions C21_utf8_rejects_refuted.

(** ** the two conversions are inverse *)
Theorem C21_encode_decode : forall {HS} (E : env HS), has_std E -> forall a cs o o' st,
  Forall scalar cs -> holds (smem st) a (utf8_mem cs) -> msize (smem st) < 2 ^ 32 ->
  0 <= o -> o + Z.of_nat (length (utf8 cs)) <= msize (smem st) ->
  disjoint a (4 * Z.of_nat (length cs)) o (Z.of_nat (length (utf8 cs))) ->
  0 <= o' -> o' + 4 * Z.of_nat (length cs) <= msize (smem st) ->
  disjoint o (Z.of_nat (length (utf8 cs))) o' (4 * Z.of_nat (length cs)) ->
  exists n m1 m2,
    calls E "stdlib.convert-scalars-to-utf8" [VI32 a; VI32 (4 * Z.of_nat (length cs)); VI32 o] st (RVals [VI32 n] (with_mem st m1)) /\
    calls E "stdlib.utf8-to-string-utf8" [VI32 o; VI32 n; VI32 o'; VI32 (Z.of_nat (length cs))] (with_mem st m1)
      (RVals [VI32 1; VI32 o'; VI32 (4 * Z.of_nat (length cs))] (with_mem st m2)) /\
    holds m2 o' (utf8_mem cs).
Proof.
  intros HS E HE a cs o o' st Hs H Hms Ho Hr Hd Ho' Hr' Hd'.
  destruct (C21_convert_scalars E HE a cs o st Hs H Ho Hr Hms Hd) as (m1 & Hc1 & Hh1 & Ho1).
  assert (Hm1 : msize m1 = msize (smem st)) by apply Ho1.
  destruct (C21_utf8_accepts E HE o (utf8 cs) cs o' (Z.of_nat (length cs)) (with_mem st m1)) as (m2 & Hc2 & Hh2 & _);
    cbn [smem with_mem]; rewrite ?Hm1; auto; try lia.
  - split; auto.
  - exists (Z.of_nat (length (utf8 cs))), m1, m2. auto.
Qed.
Print Assumptions C21_encode_decode.

Theorem C21_decode_encode : forall {HS} (E : env HS), has_std E -> forall a bs cs o o' maxlen st,
  utf8_of bs cs -> Z.of_nat (length cs) <= maxlen -> holds (smem st) a bs -> msize (smem st) < 2 ^ 32 ->
  0 <= o -> o + 4 * maxlen <= msize (smem st) -> disjoint a (Z.of_nat (length bs)) o (4 * maxlen) ->
  0 <= o' -> o' + Z.of_nat (length bs) <= msize (smem st) -> disjoint o (4 * maxlen) o' (Z.of_nat (length bs)) ->
  exists n m1 m2,
    calls E "stdlib.utf8-to-string-utf8" [VI32 a; vlen bs; VI32 o; VI32 maxlen] st (RVals [VI32 1; VI32 o; VI32 n] (with_mem st m1)) /\
    calls E "stdlib.convert-scalars-to-utf8" [VI32 o; VI32 n; VI32 o'] (with_mem st m1) (RVals [vlen bs] (with_mem st m2)) /\
    holds m2 o' bs.
Proof.
  intros HS E HE a bs cs o o' maxlen st [Hu ->] Hl H Hms Ho Hr Hd Ho' Hr' Hd'.
  destruct (C21_utf8_accepts E HE a (utf8 cs) cs o maxlen st) as (m1 & Hc1 & Hh1 & Ho1); auto; [split; auto|].
  assert (Hm1 : msize m1 = msize (smem st)) by apply Ho1.
  destruct (C21_convert_scalars E HE o cs o' (with_mem st m1)) as (m2 & Hc2 & Hh2 & _); cbn [smem with_mem]; rewrite ?Hm1; auto; try lia.
  - unfold disjoint in *. lia.
  - exists (4 * Z.of_nat (length cs)), m1, m2. auto.
Qed.
Print Assumptions C21_decode_encode.

(** a text has one reading *)
Theorem C21_utf8_unique : forall bs cs cs', utf8_of bs cs -> utf8_of bs cs' -> cs = cs'.
Proof.
  intros bs cs cs' [H1 H2] [H3 H4].
  destruct (utf8_cancel cs [] cs' H1 H3) as (cs1 & -> & E1 & _); [constructor|rewrite app_nil_r; congruence|].
  destruct cs1 as [|c cs1]; [apply eq_sym, app_nil_r|]. rewrite utf8_cons in E1.
  pose proof (utf8_char_nat c). destruct (utf8_char c); [cbn in *; lia|discriminate].
Qed.
Print Assumptions C21_utf8_unique.

(** concrete cases: "a", U+E9, U+20AC, U+1F600 *)
Definition c21_text : list Z := [97; 233; 8364; 128512].
Definition c21_store : store unit := with_mem blank_store (write_bytes (smem blank_store) 2000 (utf8 c21_text)).
Example C21_ex1 : utf8 c21_text = [97; 195; 169; 226; 130; 172; 240; 159; 152; 128] /\ Forall scalar c21_text.
Proof. split; [vm_compute; reflexivity|]. unfold c21_text, scalar. repeat constructor; lia. Qed.
Example C21_ex2 : match invoke std_env 200 "stdlib.utf8-to-string-utf8" [VI32 2000; VI32 10; VI32 3000; VI32 4] c21_store with
  | RVals vs st => (vs, bytes_at (smem st) 3000 16) = ([VI32 1; VI32 3000; VI32 16], utf8_mem c21_text) | _ => False end.
Proof. vm_compute. reflexivity. Qed.
Example C21_ex3 : match invoke std_env 200 "stdlib.utf8-to-string-utf8" [VI32 2000; VI32 10; VI32 3000; VI32 3] c21_store with
  | RVals vs _ => vs = [VI32 0; VI32 0; VI32 0] | _ => False end.
Proof. vm_compute. reflexivity. Qed.
