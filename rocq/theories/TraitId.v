(** * Byte encoding of trait identifiers: /repo/clar2wasm/src/wasm_utils.rs 1636-1710 *)
From Coq Require Import ZArith String List Bool Lia.
Import ListNotations.
From Verif Require Import Wasm Bytes SpecBytes Clar Codec Ledger.
Open Scope Z_scope.

(** TraitIdentifier: issuer (version, 20 bytes), contract name, trait name *)
Record trait_id := mktrait { ti_version : Z; ti_hash : list Z; ti_contract : list Z; ti_name : list Z }.

(** [u8]: the result of [len()] on names ([fn len(&self) -> u8], u8 conversion) and of [push] *)
Definition as_u8 (n : nat) : Z := Z.of_nat n mod 256.

(** 1638-1665 [trait_identifier_as_bytes] *)
Definition trait_identifier_as_bytes (t : trait_id) : list Z :=
  [ti_version t] ++ ti_hash t ++
  [as_u8 (length (ti_contract t))] ++ ti_contract t ++
  [as_u8 (length (ti_name t))] ++ ti_name t.

(** [split_first], [split_at_checked] *)
Definition split_first (bs : list Z) : option (Z * list Z) :=
  match bs with b :: bs => Some (b, bs) | [] => None end.
Definition split_at_checked (n : nat) (bs : list Z) : option (list Z * list Z) :=
  if (n <=? length bs)%nat then Some (firstn n bs, skipn n bs) else None.

(** 1669-1706 [trait_identifier_from_bytes]; names outside ASCII already fail the
    name grammar, so the UTF-8 check is left out *)
Definition trait_identifier_from_bytes (bs : list Z) : option trait_id :=
  do vb <- split_first bs;
  do hb <- split_at_checked 20 (snd vb);
  do std <- standard_principal (fst vb) (fst hb);
  do lb <- split_first (snd hb);
  do cb <- split_at_checked (Z.to_nat (fst lb)) (snd lb);
  if is_contract_name (fst cb) then
    do nb <- split_first (snd cb);
    if (length (snd nb) =? Z.to_nat (fst nb))%nat then
      if is_clarity_name (snd nb)
      then Some (mktrait (fst std) (snd std) (fst cb) (snd nb))
      else None
    else None
  else None.
