(** * What [get-block-info?] and its kin mean (specification) *)
From Coq Require Import ZArith String List Bool Lia.
Import ListNotations.
From Verif Require Import Clar.
Open Scope string_scope.
Open Scope list_scope.
Open Scope Z_scope.

(** the four words, and the properties they can ask for *)
Inductive iword := WBlock | WStacks | WTenure | WBurn.
Inductive field := FTime | FHeaderHash | FIdHeaderHash | FBurnHeaderHash | FVrfSeed | FMiner | FReward | FSpendTotal | FSpendWinner | FPoxAddrs.

(** what the chain can be asked about a height *)
Inductive query := QTime | QBurnTime | QHeader | QIndexHeader | QBurnHeader | QVrf | QMiner | QReward | QSpendTotal | QSpendWinner | QBurnHash | QPox.
(** The chain as seen from a block: [ci_now] is the height of the block being built (or, in
    [at-block], of the one looked from); [ci_ask] answers a query about a height: no answer
    at all is a failure of the node, [Some None] is "there is none".  Neither depends on
    what contracts did. *)
Definition view := option (list Z).
Record chain_info := mkinfo { ci_now : view -> Z; ci_ask : query -> Z -> view -> option (option value) }.

(** the query behind a property *)
Definition meant (w : iword) (f : field) : option query :=
  match w, f with
  | (WBlock | WStacks), FTime => Some QTime
  | (WBlock | WStacks), FHeaderHash => Some QHeader
  | (WBlock | WStacks), FIdHeaderHash => Some QIndexHeader
  | WTenure, FTime => Some QBurnTime
  | (WBlock | WTenure), FBurnHeaderHash => Some QBurnHeader
  | (WBlock | WTenure), FVrfSeed => Some QVrf
  | (WBlock | WTenure), FMiner => Some QMiner
  | (WBlock | WTenure), FReward => Some QReward
  | (WBlock | WTenure), FSpendTotal => Some QSpendTotal
  | (WBlock | WTenure), FSpendWinner => Some QSpendWinner
  | WBurn, FHeaderHash => Some QBurnHash
  | WBurn, FPoxAddrs => Some QPox
  | _, _ => None
  end.
Definition pox_ty : ty := TTuple [("addrs", TList 2 (TTuple [("hashbytes", TBuff 32); ("version", TBuff 1)])); ("payout", TUInt)].
Definition query_ty (q : query) : ty :=
  match q with
  | QTime | QBurnTime | QReward | QSpendTotal | QSpendWinner => TUInt
  | QHeader | QIndexHeader | QBurnHeader | QVrf | QBurnHash => TBuff 32
  | QMiner => TPrin
  | QPox => pox_ty
  end.
(** what the database gives back: values of these types, heights of 32 bits *)
Definition good_info (ci : chain_info) : Prop :=
  (forall w, 0 <= ci_now ci w < 2 ^ 32) /\
  (forall q h w x, 0 <= h < 2 ^ 32 -> ci_ask ci q h w = Some (Some x) -> has_type (query_ty q) x).

(** [get-burn-block-info?] looks at the burn chain, which may be ahead; the others look at
    blocks before the present one only. *)
Definition in_sight (ci : chain_info) (w : iword) (h : Z) (v : view) : bool :=
  match w with WBurn => h <? 2 ^ 32 | _ => h <? ci_now ci v end.
Definition answer (ci : chain_info) (w : iword) (q : query) (h : Z) (v : view) : option (option value) :=
  if in_sight ci w h v then ci_ask ci q h v else Some None.
