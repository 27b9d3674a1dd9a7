(** * C64: map *)
From Coq Require Import ZArith String List Bool Lia.
Import ListNotations.
From Verif Require Import Wasm Std StdEnv WasmLogic WasmTac Spec Mem MemFacts Bytes SpecBytes SpecUtf8 Clar Rep RepFacts ArgProofs Emit Equal Ast SpecLang Lang Typing
  LangFacts LangBase LangArith LangSlice LangLaid LangIndex LangCall LangPrim LangMain LangPlain LangTotal PropLang PropLang2.
Open Scope string_scope.
Open Scope list_scope.
Open Scope Z_scope.

(** ** Specification *)
(** [rs] are the rows of the sequences [vs]: as many as the shortest has elements,
    the [i]-th consisting of the [i]-th element of each *)
Definition rows_of (vs : list value) (rs : list (list value)) : Prop :=
  (forall v, In v vs -> (length rs <= length (seq_items v))%nat) /\ (exists v, In v vs /\ length rs = length (seq_items v)) /\
  forall i r, nth_error rs i = Some r -> map Some r = map (fun v => nth_error (seq_items v) i) vs.
(** the calls of [g] with each row, first row first, yield the results in turn; if
    one of the calls aborts, nothing more is done *)
Inductive maps {HS} (g : list value -> M HS value) : list (list value) -> HS -> res HS (list value) -> Prop :=
| maps_end h : maps g [] h (Done [] h)
| maps_step r rs h w h' ws h'' : g r h = Some (Done w h') -> maps g rs h' (Done ws h'') -> maps g (r :: rs) h (Done (w :: ws) h'')
| maps_later r rs h w h' c : g r h = Some (Done w h') -> maps g rs h' (Abort c) -> maps g (r :: rs) h (Abort c)
| maps_abort r rs h c : g r h = Some (Abort c) -> maps g (r :: rs) h (Abort c).
Definition list_of {HS} (rs : res HS (list value)) : res HS value :=
  match rs with Done ws h => Done (CList ws) h | Early v h => Early v h | Abort c => Abort c end.

(** ** The rows *)
Lemma rows_sound n : forall ls, (forall l, In l ls -> (length (rows n ls) <= length l)%nat) /\
  forall i r, nth_error (rows n ls) i = Some r -> map Some r = map (fun l => nth_error l i) ls.
Proof.
  intros ls. split; [intros l; apply rows_short|]. revert ls. induction n as [|n IH]; intros ls i r Hi; cbn [rows] in Hi; [destruct i; discriminate|].
  destruct (forallb _ ls) eqn:Ef; [|destruct i; discriminate]. destruct i as [|i]; cbn [nth_error] in Hi.
  - injection Hi as <-. clear IH. induction ls as [|l ls IHl]; [reflexivity|]. cbn [forallb flat_map map] in *. apply andb_prop in Ef as (E1 & E2). destruct l as [|x l]; [discriminate|]. cbn [firstn app map nth_error]. f_equal. auto.
  - rewrite (IH _ _ _ Hi). rewrite map_map. apply map_ext_in. intros l Hl. rewrite forallb_forall in Ef. specialize (Ef _ Hl). destruct l; [discriminate|reflexivity].
Qed.
Lemma rows_stop' n : forall ls, (length (rows n ls) = n \/ exists l, In l ls /\ length (rows n ls) = length l)%nat.
Proof.
  induction n as [|n IH]; intros ls; cbn [rows]; [left; reflexivity|]. destruct (forallb _ ls) eqn:Ef.
  - cbn [length]. destruct (IH (map (@tl value) ls)) as [H|(l & Hl & H)]; [left; congruence|right]. apply in_map_iff in Hl as (l0 & <- & Hl). exists l0. split; [exact Hl|].
    rewrite forallb_forall in Ef. specialize (Ef _ Hl). destruct l0; [discriminate|]. cbn [tl length] in *. congruence.
  - right. assert (Hx : exists l, In l ls /\ (match l with [] => false | _ :: _ => true end) = false). { clear IH. induction ls as [|l ls IH]; [discriminate|]. cbn [forallb] in Ef. apply andb_false_iff in Ef as [E|E]; [exists l; split; [left; reflexivity|exact E]|]. destruct (IH E) as (x & H1 & H2). exists x. split; [right; exact H1|exact H2]. }
    destruct Hx as (l & Hl & H). destruct l; [|discriminate]. exists []. split; [exact Hl|reflexivity].
Qed.
Lemma zip_rows_of vs : vs <> [] -> rows_of vs (zip_rows (map seq_items vs)).
Proof.
  intros Hne. destruct vs as [|v0 vs]; [congruence|]. clear Hne. unfold zip_rows. cbn [map hd]. set (n := length (seq_items v0)). set (ls := seq_items v0 :: map seq_items vs).
  destruct (rows_sound n ls) as (H1 & H2). split; [|split].
  - intros v Hv. apply H1. unfold ls. destruct Hv as [<-|Hv]; [left; reflexivity|right; apply in_map; exact Hv].
  - destruct (rows_stop' n ls) as [H|(l & Hl & H)]; [exists v0; split; [left; reflexivity|exact H]|].
    unfold ls in Hl. change (seq_items v0 :: map seq_items vs) with (map seq_items (v0 :: vs)) in Hl. apply in_map_iff in Hl as (v & <- & Hv). exists v. split; [exact Hv|exact H].
  - intros i r Hi. rewrite (H2 _ _ Hi). unfold ls. cbn [map]. f_equal. apply map_map.
Qed.
Lemma some_inj (a b : list value) : map Some a = map Some b -> a = b.
Proof. revert b. induction a as [|x a IH]; intros [|y b] H; try discriminate; [reflexivity|]. cbn [map] in H. injection H as -> H. f_equal. auto. Qed.
Lemma nth_error_ext_len {A} (a b : list A) : length a = length b -> (forall i, (i < length a)%nat -> nth_error a i = nth_error b i) -> a = b.
Proof.
  revert b. induction a as [|x a IH]; intros [|y b] Hl H; try discriminate; [reflexivity|]. pose proof (H 0%nat ltac:(cbn; lia)) as H0. cbn in H0. injection H0 as ->. f_equal.
  apply IH; [cbn in Hl; congruence|]. intros i Hi. apply (H (S i)). cbn. lia.
Qed.
Lemma rows_unique vs rs rs' : rows_of vs rs -> rows_of vs rs' -> rs = rs'.
Proof.
  intros (A1 & (v & A2 & A3) & A4) (B1 & (w & B2 & B3) & B4). assert (Hl : length rs = length rs') by (pose proof (A1 _ B2); pose proof (B1 _ A2); lia).
  clear - Hl A4 B4. apply nth_error_ext_len; [exact Hl|]. intros i Hi.
  destruct (nth_error rs i) as [r|] eqn:E1; [|apply nth_error_None in E1; lia]. destruct (nth_error rs' i) as [r'|] eqn:E2; [|apply nth_error_None in E2; lia].
  f_equal. apply some_inj. rewrite (A4 _ _ E1), (B4 _ _ E2). reflexivity.
Qed.

Lemma maps_run {HS} {CH : chain HS} funs g t rs (h : HS) out : maps (apply_fn true funs g t) rs h out -> mapF true funs g t rs h = Some out.
Proof.
  induction 1 as [h|r rs h w h' ws h'' Hg H IH|r rs h w h' c Hg H IH|r rs h c Hg]; cbn [mapF]; unfold bind; [reflexivity|rewrite Hg, IH; reflexivity|rewrite Hg, IH; reflexivity|rewrite Hg; reflexivity].
Qed.

(** ** C64 *)
(** A function whose body is [(map g a1 ... an)] with [g] a function of the program (of
    any kind): when the operands yield the sequences [vs], in turn, and [rs] are their
    rows, the call returns the list of what the calls of [g] with the rows yield, or
    aborts with the error of the first call that aborts. *)
Theorem C64_map_user_function_partial : forall {HS} {CH : chain HS} host d ds args ws (st : store HS) sp k g n t es vs rs h1 out,
  wt_prog (d :: ds) = true -> own_names (d :: ds) -> host_ok (module_env host (d :: ds)) -> ready (d :: ds) st sp ->
  Forall2 has_type (map snd (fd_params d)) args -> rep_list (smem st) (fun a => a < sp) (map snd (fd_params d)) args ws ->
  fd_body d = EMap (FUser k g) n t es ->
  evals (run_defs true ds) (combine (map fst (fd_params d)) args) es (shost st) vs h1 -> rows_of vs rs ->
  maps (fun r => called_as true k (run_defs true ds g r)) rs h1 out ->
  behaves (module_env host (d :: ds)) (fd_name d) ws st sp (fd_ret d) (list_of out).
Proof.
  intros HS CH host d ds args ws st sp k g n t es vs rs h1 out H1 H2 HO H3 H4 H5 Hb Ev Hr Hm.
  assert (Hne : vs <> []) by (destruct Hr as (_ & (v & Hv & _) & _); destruct vs; [destruct Hv|discriminate]).
  assert (Hrs : rs = zip_rows (map seq_items vs)) by (apply (rows_unique vs); [exact Hr|apply zip_rows_of; exact Hne]).
  assert (Hev : eval true (run_defs true ds) (fd_body d) (combine (map fst (fd_params d)) args) (shost st) = Some (list_of out)).
  { rewrite Hb. cbn [eval]. unfold bind. rewrite (mapM_evals _ _ _ _ _ _ Ev), <- Hrs. rewrite (maps_run _ (FUser k g) t rs h1 out Hm). destruct out; reflexivity. }
  pose proof (body_behaves host d ds args ws st sp _ H1 H2 HO H3 H4 H5 Hev) as K. destruct out as [| |]; try exact K.
  exfalso. clear - Hm. remember (Early v h) as o. induction Hm; congruence.
Qed.
Print Assumptions C64_map_user_function_partial.

(** [(map + a b)] on lists of [uint]: the sums of the elements at the same position, up
    to the end of the shorter list; aborts with the overflow error when one does not fit *)
Fixpoint sums (xs ys : list Z) : list Z := match xs, ys with x :: xs, y :: ys => x + y :: sums xs ys | _, _ => [] end.
Fixpoint pairs (xs ys : list Z) : list (list value) := match xs, ys with x :: xs, y :: ys => [CUInt x; CUInt y] :: pairs xs ys | _, _ => [] end.
Lemma pairs_rows xs ys : rows_of [CList (map CUInt xs); CList (map CUInt ys)] (pairs xs ys).
Proof.
  revert ys. induction xs as [|x xs IH]; intros ys; cbn [pairs].
  - split; [intros v _; cbn; lia|]. split; [exists (CList []); split; [left; reflexivity|reflexivity]|]. intros [|i] r; discriminate.
  - destruct ys as [|y ys].
    + split; [intros v _; cbn; lia|]. split; [exists (CList []); split; [right; left; reflexivity|reflexivity]|]. intros [|i] r; discriminate.
    + destruct (IH ys) as (A1 & (v & A2 & A3) & A4). split; [|split].
      * intros w [<-|[<-|[]]]; cbn [seq_items length map]; apply le_n_S.
        -- apply (A1 (CList (map CUInt xs))). left. reflexivity.
        -- apply (A1 (CList (map CUInt ys))). right. left. reflexivity.
      * destruct A2 as [<-|[<-|[]]]; cbn [seq_items] in A3; [exists (CList (map CUInt (x :: xs)))|exists (CList (map CUInt (y :: ys)))]; (split; [cbn; auto|]); cbn [seq_items map length]; f_equal; exact A3.
      * intros [|i] r Hi; cbn [nth_error] in Hi; [injection Hi as <-; reflexivity|]. exact (A4 _ _ Hi).
Qed.
Lemma pairs_maps {HS} {CH : chain HS} funs xs ys (h : HS) : Forall (fun x => 0 <= x) xs -> Forall (fun y => 0 <= y) ys ->
  maps (apply_fn true funs (FArith OAdd) TUInt) (pairs xs ys) h (if forallb (fun z => z <? 2 ^ 128) (sums xs ys) then Done (map CUInt (sums xs ys)) h else Abort err_overflow).
Proof.
  intros Hx. revert ys. induction Hx as [|x xs Hx0 Hx IH]; intros ys Hy; cbn [pairs sums forallb map]; [constructor|]. destruct Hy as [|y ys Hy0 Hy]; cbn [pairs sums forallb map]; [constructor|].
  destruct (Z.ltb_spec (x + y) (2 ^ 128)) as [Hl|Hl]; cbn [andb].
  - specialize (IH ys Hy). assert (Hg : apply_fn true funs (FArith OAdd) TUInt [CUInt x; CUInt y] h = Some (Done (CUInt (x + y)) h)) by (rewrite apply_add by assumption; rewrite (proj2 (Z.ltb_lt _ _)) by exact Hl; reflexivity).
    destruct (forallb _ _); [eapply maps_step; eassumption|eapply maps_later; eassumption].
  - apply maps_abort. rewrite apply_add by assumption. rewrite (proj2 (Z.ltb_ge _ _)) by exact Hl. reflexivity.
Qed.
Theorem C64_map_sum : forall {HS} {CH : chain HS} host d ds args ws (st : store HS) sp n a b xs ys h1 h2,
  wt_prog (d :: ds) = true -> own_names (d :: ds) -> host_ok (module_env host (d :: ds)) -> ready (d :: ds) st sp ->
  Forall2 has_type (map snd (fd_params d)) args -> rep_list (smem st) (fun a => a < sp) (map snd (fd_params d)) args ws ->
  let env := combine (map fst (fd_params d)) args in
  fd_body d = EMap (FArith OAdd) n TUInt [a; b] ->
  eval true (run_defs true ds) a env (shost st) = Some (Done (CList (map CUInt xs)) h1) -> eval true (run_defs true ds) b env h1 = Some (Done (CList (map CUInt ys)) h2) ->
  Forall (fun x => 0 <= x) xs -> Forall (fun y => 0 <= y) ys ->
  behaves (module_env host (d :: ds)) (fd_name d) ws st sp (fd_ret d)
    (if forallb (fun z => z <? 2 ^ 128) (sums xs ys) then Done (CList (map CUInt (sums xs ys))) h2 else Abort err_overflow).
Proof.
  intros HS CH host d ds args ws st sp n a b xs ys h1 h2 H1 H2 HO H3 H4 H5 env Hb Ea Eb Hx Hy.
  assert (Hr : zip_rows (map seq_items [CList (map CUInt xs); CList (map CUInt ys)]) = pairs xs ys) by (apply (rows_unique [CList (map CUInt xs); CList (map CUInt ys)]); [apply zip_rows_of; discriminate|apply pairs_rows]).
  pose proof (maps_run (run_defs true ds) (FArith OAdd) TUInt _ _ _ (pairs_maps (run_defs true ds) xs ys h2 Hx Hy)) as Hm.
  assert (Hev : eval true (run_defs true ds) (fd_body d) env (shost st) = Some (if forallb (fun z => z <? 2 ^ 128) (sums xs ys) then Done (CList (map CUInt (sums xs ys))) h2 else Abort err_overflow)).
  { rewrite Hb. cbn [eval mapM]. unfold bind, ret. cbn [map mapM]. unfold bind, ret. rewrite Ea, Eb. cbv beta iota. change (map seq_items [CList (map CUInt xs); CList (map CUInt ys)]) with (map seq_items [CList (map CUInt xs); CList (map CUInt ys)]) in Hr. rewrite Hr, Hm. destruct (forallb _ _); reflexivity. }
  pose proof (body_behaves host d ds args ws st sp _ H1 H2 HO H3 H4 H5 Hev) as K. destruct (forallb _ _); exact K.
Qed.
Print Assumptions C64_map_sum.
(** (define-private (g (x uint) (y int)) (- y (to-int x)))  (define-private (f (y int)) (map g (list u1 u2 u3) (list y 7))) *)
Definition ex_g3 : fundef := mkdef "g" [("x", TUInt); ("y", TInt)] TInt (EArith OSub TInt (EVar TInt "y") [EWord WToInt TInt [EVar TUInt "x"]]).
Definition ex_map : fundef := mkdef "f" [("y", TInt)] (TList 3 TInt)
  (EMap (FUser KPrivate "g") 3 TInt [EList 16 TUInt [ENum TUInt 1; ENum TUInt 2; ENum TUInt 3]; EList 2 TInt [EVar TInt "y"; ENum TInt 7]]).
Example C64_ex : wt_prog [ex_map; ex_g3] = true /\ plain_prog [ex_map; ex_g3] = true /\ ready [ex_map; ex_g3] ex_st 9 /\
  rows_of [CList [CUInt 1; CUInt 2; CUInt 3]; CList [CInt 2; CInt 7]] [[CUInt 1; CInt 2]; [CUInt 2; CInt 7]] /\
  maps (HS := unit) (fun r => called_as true KPrivate (run_defs true [ex_g3] "g" r)) [[CUInt 1; CInt 2]; [CUInt 2; CInt 7]] tt (Done [CInt 1; CInt 5] tt) /\
  match invoke (module_env (fun _ => None) [ex_map; ex_g3]) 100 "f" [VI64 2; VI64 0] ex_st with RVals ws st' => ws = [VI32 297; VI32 32] /\ bytes_at (smem st') 297 32 = le_bytes 16 1 ++ le_bytes 16 5 | _ => False end.
Proof.
  split; [vm_compute; reflexivity|]. split; [reflexivity|]. split. { split; [reflexivity|eexists; reflexivity|lia|vm_compute; split; [discriminate|reflexivity]|vm_compute; discriminate|constructor]. }
  split. { apply (zip_rows_of [CList [CUInt 1; CUInt 2; CUInt 3]; CList [CInt 2; CInt 7]]). discriminate. }
  split. { eapply maps_step; [vm_compute; reflexivity|]. eapply maps_step; [vm_compute; reflexivity|]. apply maps_end. }
  vm_compute. split; reflexivity.
Qed.
(** Applying a function of the contract, the generator replaces the type it has recorded for the
    first sequence by a list of at most as many elements as an element has bytes
    (sequences.rs 646-674); a list built in place then reserves space for that many
    elements, and the results are written over the rest of it.
    (define-private (g (x bool)) (not x))
    (define-private (f) (map g (list true false false false false false))) *)
Definition ex_g4 : fundef := mkdef "g" [("x", TBool)] TBool (EWord WNot TBool [EVar TBool "x"]).
Definition ex_lits : list expr := EBool true :: repeat (EBool false) 5.
Definition ex_map_as_written : expr := EMap (FUser KPrivate "g") 6 TBool [EList 6 TBool ex_lits].
Definition ex_map_compiled : expr := map_src (FUser KPrivate "g") 6 TBool [EList 6 TBool ex_lits].
Definition ex_map2 (b : expr) : fundef := mkdef "f" [] (TList 6 TBool) b.
Theorem C64_list_literal_refuted :
  wt_prog [ex_map2 ex_map_as_written; ex_g4] = true /\
  run_defs false [ex_map2 ex_map_as_written; ex_g4] "f" [] tt = Some (Done (CList (CBool false :: repeat (CBool true) 5)) tt) /\
  forall ws st', calls (module_env (fun _ => None) [ex_map2 ex_map_compiled; ex_g4]) "f" [] ex_st (RVals ws st') ->
    ~ rep (smem st') (fun _ => True) (TList 6 TBool) (CList (CBool false :: repeat (CBool true) 5)) ws.
Proof.
  split; [vm_compute; reflexivity|]. split; [vm_compute; reflexivity|]. intros ws st' Hc.
  assert (Hr : match invoke (module_env (fun _ => None) [ex_map2 ex_map_compiled; ex_g4]) 100 "f" [] ex_st with RVals ws st' => ws = [VI32 25; VI32 24] /\ bytes_at (smem st') 45 4 = [0; 0; 0; 0] | _ => False end) by (vm_compute; split; reflexivity).
  destruct (invoke (module_env (fun _ => None) [ex_map2 ex_map_compiled; ex_g4]) 100 "f" [] ex_st) as [ws0 st0| | |] eqn:Ei; try contradiction. destruct Hr as (Hr1 & Hr2).
  assert (Hc0 : calls (module_env (fun _ => None) [ex_map2 ex_map_compiled; ex_g4]) "f" [] ex_st (RVals ws0 st0)) by (apply (calls_compute _ 100); [exact Ei|discriminate]).
  pose proof (calls_det _ _ _ _ _ _ Hc Hc0) as Heq. assert (ws = ws0) by congruence. assert (st' = st0) by congruence. subst ws st'. clear Hc Hc0 Ei Heq. rewrite Hr1. cbn [rep repeat].
  intros (o & Ho & _ & _ & _ & _ & _ & _ & _ & _ & _ & ((w & Hw & Hb) & _)). assert (o = 25) by congruence. subst o w.
  change (25 + words_size (clar2wasm_ty TBool) + words_size (clar2wasm_ty TBool) + words_size (clar2wasm_ty TBool) + words_size (clar2wasm_ty TBool) + words_size (clar2wasm_ty TBool)) with 45 in Hw.
  unfold words_at in Hw. assert (Hb2 : bytes_at (smem st0) 45 4 = [1; 0; 0; 0]) by (destruct Hw as (_ & _ & Hw); exact Hw).
  rewrite Hb2 in Hr2. discriminate.
Qed.
Print Assumptions C64_list_literal_refuted.
