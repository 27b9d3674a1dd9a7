(** * C41: trait identifiers survive their byte encoding *)
From Coq Require Import ZArith String List Bool Lia.
Import ListNotations.
From Verif Require Import Wasm Bytes SpecBytes Clar Codec Ledger TraitId.
Open Scope Z_scope.

(** What an identifier is (clarity crate): a standard principal (5-bit version,
    20 bytes), a contract name and a Clarity name, each of at most 128 characters.
    A Clarity name is a letter followed by letters, digits and -_!?+<>=/*, or one
    of - + = / * < <= > >=. *)
Definition name_char (c : Z) : bool :=
  is_letter c || is_digit c || existsb (Z.eqb c) [45; 95; 33; 63; 43; 60; 62; 61; 47; 42].
Definition clarity_name (s : list Z) : Prop :=
  (exists c r, s = c :: r /\ is_letter c = true /\ forallb name_char r = true) \/
  In s [[45]; [43]; [61]; [47]; [42]; [60]; [62]; [60; 61]; [62; 61]].
Definition identifier (t : trait_id) : Prop :=
  0 <= ti_version t < 32 /\ length (ti_hash t) = 20%nat /\
  contract_name (ti_contract t) /\ (length (ti_contract t) <= 128)%nat /\
  clarity_name (ti_name t) /\ (length (ti_name t) <= 128)%nat.

(** the wire format: version, hash, then each name behind its length byte *)
Definition wire (t : trait_id) (bs : list Z) : Prop :=
  bs = ti_version t :: ti_hash t ++
       Z.of_nat (length (ti_contract t)) :: ti_contract t ++
       Z.of_nat (length (ti_name t)) :: ti_name t.

Lemma name_char_rest c : is_name_rest c = name_char c.
Proof.
  unfold is_name_rest, name_char, is_name_char. cbn [existsb].
  destruct (is_letter c), (is_digit c), (c =? 45), (c =? 95); reflexivity.
Qed.
Lemma forallb_ext' {A} (f g : A -> bool) l : (forall x, f x = g x) -> forallb f l = forallb g l.
Proof. intros H. induction l; cbn; congruence. Qed.

Lemma is_clarity_name_iff s : is_clarity_name s = true <-> clarity_name s /\ (length s <= 128)%nat.
Proof.
  unfold is_clarity_name, clarity_name. rewrite andb_true_iff, Z.leb_le.
  assert (HL : Z.of_nat (length s) <= 128 <-> (length s <= 128)%nat) by lia. rewrite HL.
  enough (Hx : match s with
               | [] => false
               | c :: r => (is_letter c && forallb is_name_rest r) ||
                   match r with
                   | [] => existsb (Z.eqb c) [45; 43; 61; 47; 42; 60; 62]
                   | [d] => existsb (Z.eqb c) [60; 62] && (d =? 61)
                   | _ => false
                   end
               end = true <->
               (exists c r, s = c :: r /\ is_letter c = true /\ forallb name_char r = true) \/
               In s [[45]; [43]; [61]; [47]; [42]; [60]; [62]; [60; 61]; [62; 61]]) by tauto.
  destruct s as [|c r].
  - split; [discriminate|]. intros [(c & r & E & _)|H]; [discriminate|].
    cbn in H. intuition discriminate.
  - rewrite orb_true_iff, andb_true_iff, (forallb_ext' _ _ r name_char_rest).
    split.
    + intros [[A B]|H]; [left; eauto|right].
      destruct r as [|d [|? ?]]; [| |discriminate].
      * cbn [existsb] in H. rewrite !orb_true_iff in H. cbn [In].
        repeat match goal with H : _ \/ _ |- _ => destruct H as [H|H] end;
          try discriminate; apply Z.eqb_eq in H; subst; auto 12.
      * cbn [existsb] in H. rewrite !andb_true_iff, !orb_true_iff, !Z.eqb_eq in H. cbn [In].
        destruct H as [H ->]. destruct H as [->|[->|H]]; [auto 12|auto 12|discriminate].
    + intros [(c' & r' & E & A & B)|H].
      * left. injection E as -> ->. auto.
      * right. cbn [In] in H.
        repeat match goal with H : _ \/ _ |- _ => destruct H as [H|H] end;
          try contradiction; injection H as <- <-; reflexivity.
Qed.

Lemma is_contract_name_spec s : is_contract_name s = true <-> contract_name s /\ (length s <= 128)%nat.
Proof.
  unfold is_contract_name, contract_name. rewrite andb_true_iff, Z.leb_le.
  assert (HL : Z.of_nat (length s) <= 128 <-> (length s <= 128)%nat) by lia. rewrite HL.
  destruct (list_eq_dec Z.eq_dec s transient) as [E|E]; [tauto|].
  destruct s as [|c r].
  - split; [intros [A _]; discriminate|]. intros [[A|(c & r & E' & _)] _]; [congruence|discriminate].
  - rewrite andb_true_iff. split.
    + intros [[A B] C]. split; [right; eauto|exact C].
    + intros [[A|(c' & r' & E' & A & B)] C]; [congruence|]. injection E' as -> ->. auto.
Qed.

(** C41: the encoding is the wire format *)
Theorem C41_wire_format : forall t, identifier t -> wire t (trait_identifier_as_bytes t).
Proof.
  intros t (_ & _ & _ & Hc & _ & Hn). unfold wire, trait_identifier_as_bytes, as_u8.
  rewrite !Z.mod_small by lia. reflexivity.
Qed.

(** C41: decoding succeeds exactly on the encodings of identifiers *)
Theorem C41_accepts_exactly_the_encodings : forall bs t,
  (forall b, In b bs -> 0 <= b < 256) ->
  trait_identifier_from_bytes bs = Some t <-> identifier t /\ wire t bs.
Proof.
  intros bs t Hb. split.
  - unfold trait_identifier_from_bytes, split_first, split_at_checked, standard_principal.
    destruct bs as [|v bs]; [discriminate|]. cbn [fst snd].
    destruct (Nat.leb_spec 20 (length bs)) as [H20|]; [|discriminate]. cbn [fst snd].
    destruct (Z.ltb_spec v 32) as [Hv|]; [|discriminate]. cbn [fst snd].
    destruct (skipn 20 bs) as [|lc r] eqn:Er; [discriminate|]. cbn [fst snd].
    destruct (Nat.leb_spec (Z.to_nat lc) (length r)) as [Hlc|]; [|discriminate]. cbn [fst snd].
    destruct (is_contract_name (firstn (Z.to_nat lc) r)) eqn:Ec; [|discriminate].
    destruct (skipn (Z.to_nat lc) r) as [|ln nm] eqn:En; [discriminate|]. cbn [fst snd].
    destruct (Nat.eqb_spec (length nm) (Z.to_nat ln)) as [Hln|]; [|discriminate].
    destruct (is_clarity_name nm) eqn:Em; [|discriminate].
    intros E. apply (f_equal (fun o => match o with Some x => x | None => t end)) in E. subst t.
    apply is_contract_name_spec in Ec. apply is_clarity_name_iff in Em.
    assert (Hr : bs = firstn 20 bs ++ lc :: firstn (Z.to_nat lc) r ++ ln :: nm).
    { rewrite <- (firstn_skipn 20 bs) at 1. rewrite Er. rewrite <- (firstn_skipn (Z.to_nat lc) r) at 1. rewrite En. reflexivity. }
    assert (Hlcb : 0 <= lc < 256).
    { apply Hb. right. rewrite Hr. apply in_or_app. right. left. reflexivity. }
    assert (Hlnb : 0 <= ln < 256).
    { apply Hb. right. rewrite Hr. apply in_or_app. right. right. apply in_or_app. right. left. reflexivity. }
    assert (Hvb : 0 <= v < 256) by (apply Hb; left; reflexivity).
    assert (HL1 : length (firstn (Z.to_nat lc) r) = Z.to_nat lc) by (rewrite firstn_length; lia).
    split.
    + unfold identifier. cbn [ti_version ti_hash ti_contract ti_name].
      split; [lia|]. split; [rewrite firstn_length; lia|]. tauto.
    + unfold wire. cbn [ti_version ti_hash ti_contract ti_name].
      rewrite HL1, Hln, !Z2Nat.id by lia. f_equal. exact Hr.
  - intros [(Hv & Hh & Hc & Hcl & Hn & Hnl) Hw]. red in Hw.
    destruct t as [v h c n]. cbn [ti_version ti_hash ti_contract ti_name] in *. subst bs.
    unfold trait_identifier_from_bytes, split_first, split_at_checked, standard_principal. cbn [fst snd].
    assert (E1 : (20 <=? length (h ++ Z.of_nat (length c) :: c ++ Z.of_nat (length n) :: n))%nat = true).
    { apply Nat.leb_le. rewrite app_length. lia. }
    rewrite E1. cbn [fst snd].
    assert (E2 : firstn 20 (h ++ Z.of_nat (length c) :: c ++ Z.of_nat (length n) :: n) = h).
    { rewrite firstn_app, <- Hh, firstn_all, Nat.sub_diag. cbn. apply app_nil_r. }
    assert (E3 : skipn 20 (h ++ Z.of_nat (length c) :: c ++ Z.of_nat (length n) :: n) = Z.of_nat (length c) :: c ++ Z.of_nat (length n) :: n).
    { rewrite skipn_app, <- Hh, skipn_all, Nat.sub_diag. reflexivity. }
    rewrite E2, E3. destruct (Z.ltb_spec v 32) as [_|]; [|lia]. cbn [fst snd].
    rewrite Nat2Z.id.
    assert (E4 : (length c <=? length (c ++ Z.of_nat (length n) :: n))%nat = true).
    { apply Nat.leb_le. rewrite app_length. lia. }
    rewrite E4. cbn [fst snd].
    rewrite firstn_app, firstn_all, Nat.sub_diag, skipn_app, skipn_all, Nat.sub_diag. cbn [firstn skipn app fst snd].
    rewrite app_nil_r.
    rewrite (proj2 (is_contract_name_spec c)) by auto.
    rewrite Nat2Z.id, Nat.eqb_refl.
    rewrite (proj2 (is_clarity_name_iff n)) by auto. reflexivity.
Qed.

Lemma name_bytes s : clarity_name s -> forall b, In b s -> 0 <= b < 256.
Proof.
  intros [(c & r & -> & Hc & Hr)|H] b Hb.
  - assert (Hx : name_char b = true).
    { destruct Hb as [<-|Hb]; [unfold name_char; rewrite Hc; reflexivity|].
      rewrite forallb_forall in Hr. auto. }
    unfold name_char, is_letter, is_digit in Hx. cbn [existsb] in Hx.
    rewrite !orb_true_iff, !andb_true_iff, !Z.leb_le, !Z.eqb_eq in Hx.
    intuition (try lia; try discriminate).
  - cbn [In] in H. repeat match goal with H : _ \/ _ |- _ => destruct H as [H|H] end; try contradiction;
      subst s; cbn [In] in Hb; intuition lia.
Qed.
Lemma contract_bytes s : contract_name s -> forall b, In b s -> 0 <= b < 256.
Proof.
  intros [->|(c & r & -> & Hc & Hr)] b Hb.
  - unfold transient in Hb. cbn [In] in Hb. intuition lia.
  - assert (Hx : is_name_char b = true).
    { destruct Hb as [<-|Hb]; [unfold is_name_char; rewrite Hc; reflexivity|].
      rewrite forallb_forall in Hr. auto. }
    unfold is_name_char, is_letter, is_digit in Hx.
    rewrite !orb_true_iff, !andb_true_iff, !Z.leb_le, !Z.eqb_eq in Hx. intuition lia.
Qed.

(** C41: an identifier survives encoding and decoding *)
Theorem C41_round_trip : forall t,
  identifier t -> (forall b, In b (ti_hash t) -> 0 <= b < 256) ->
  trait_identifier_from_bytes (trait_identifier_as_bytes t) = Some t.
Proof.
  intros t Hi Hh. apply C41_accepts_exactly_the_encodings; [|split; [exact Hi|apply C41_wire_format, Hi]].
  rewrite (C41_wire_format t Hi). destruct Hi as (Hv & _ & Hc & Hcl & Hn & Hnl).
  intros b [<-|Hb]; [lia|]. apply in_app_or in Hb as [Hb|[<-|Hb]]; [auto|lia|].
  apply in_app_or in Hb as [Hb|[<-|Hb]]; [eapply contract_bytes; eauto|lia|eapply name_bytes; eauto].
Qed.

(** C41: two identifiers never share an encoding, nor is one the start of another *)
Theorem C41_encodings_prefix_free : forall t t' r,
  identifier t -> identifier t' ->
  trait_identifier_as_bytes t' = trait_identifier_as_bytes t ++ r -> t' = t /\ r = [].
Proof.
  intros t t' r Hi Hi'. rewrite (C41_wire_format t Hi), (C41_wire_format t' Hi').
  destruct Hi as (_ & Hh & _), Hi' as (_ & Hh' & _).
  destruct t as [v h c n], t' as [v' h' c' n']. cbn [ti_version ti_hash ti_contract ti_name] in *.
  cbn [app]. intros E. injection E as -> E. rewrite <- app_assoc in E.
  assert (E1 := f_equal (firstn 20) E). assert (E2 := f_equal (skipn 20) E).
  rewrite !firstn_app, !skipn_app in *.
  replace (20 - length h)%nat with 0%nat in * by lia. replace (20 - length h')%nat with 0%nat in * by lia.
  rewrite <- Hh in E1 at 2. rewrite <- Hh' in E1 at 1. rewrite !firstn_all in E1. cbn [firstn] in E1. rewrite !app_nil_r in E1. subst h'.
  rewrite <- Hh, !skipn_all in E2. cbn [skipn app] in E2. injection E2 as EL E2.
  apply Nat2Z.inj in EL. rewrite <- app_assoc in E2.
  assert (E3 := f_equal (firstn (length c)) E2). assert (E4 := f_equal (skipn (length c)) E2).
  rewrite !firstn_app, !skipn_app in *.
  replace (length c - length c')%nat with 0%nat in * by lia. rewrite Nat.sub_diag in *.
  rewrite <- EL in E3 at 1. rewrite !firstn_all in E3. cbn [firstn] in E3. rewrite !app_nil_r in E3. subst c'.
  rewrite !skipn_all in E4. cbn [skipn app] in E4. injection E4 as EN E4. apply Nat2Z.inj in EN.
  assert (Hr : r = []) by (apply (f_equal (@length Z)) in E4; rewrite app_length in E4; destruct r; [reflexivity|cbn [length] in E4; lia]).
  subst r. rewrite app_nil_r in E4. subst n'. auto.
Qed.

(** a concrete identifier: SP....sip-010.token-trait *)
Definition ex_trait : trait_id :=
  mktrait 22 (repeat 7 20) [115; 105; 112; 45; 48; 49; 48] [116; 111; 107; 101; 110; 63].
Example ex_trait_identifier : identifier ex_trait.
Proof.
  unfold identifier, ex_trait; cbn [ti_version ti_hash ti_contract ti_name]. split; [lia|]. split; [reflexivity|].
  split; [right; exists 115, [105; 112; 45; 48; 49; 48]; auto|]. split; [cbn; lia|].
  split; [left; exists 116, [111; 107; 101; 110; 63]; auto|]. cbn; lia.
Qed.
Example ex_trait_decodes : trait_identifier_from_bytes (trait_identifier_as_bytes ex_trait) = Some ex_trait.
Proof. vm_compute. reflexivity. Qed.
Example ex_trait_truncated : trait_identifier_from_bytes (removelast (trait_identifier_as_bytes ex_trait)) = None.
Proof. vm_compute. reflexivity. Qed.

Print Assumptions C41_wire_format.
Print Assumptions C41_accepts_exactly_the_encodings.
Print Assumptions C41_round_trip.
Print Assumptions C41_encodings_prefix_free.
