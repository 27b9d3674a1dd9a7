(** * C57-C60: slice?, replace-at?, index-of, fold *)
From Coq Require Import ZArith String List Bool Lia.
Import ListNotations.
From Verif Require Import Wasm Std StdEnv WasmLogic WasmTac Spec Mem MemFacts Bytes SpecBytes SpecUtf8 Clar Rep RepFacts ArgProofs Emit Equal Ast SpecLang Lang Typing
  LangFacts LangBase LangArith LangSlice LangLaid LangIndex LangCall LangPrim LangMain LangPlain LangTotal PropLang.
Open Scope string_scope.
Open Scope list_scope.
Open Scope Z_scope.

(** the call of a function does what the evaluation of its body does *)
Lemma body_behaves {HS} {CH : chain HS} host d ds args ws (st : store HS) sp rs :
  wt_prog (d :: ds) = true -> own_names (d :: ds) -> host_ok (module_env host (d :: ds)) -> ready (d :: ds) st sp ->
  Forall2 has_type (map snd (fd_params d)) args -> rep_list (smem st) (fun a => a < sp) (map snd (fd_params d)) args ws ->
  eval true (run_defs true ds) (fd_body d) (combine (map fst (fd_params d)) args) (shost st) = Some rs ->
  behaves (module_env host (d :: ds)) (fd_name d) ws st sp (fd_ret d) (match rs with Early v h => Done v h | x => x end).
Proof.
  intros H1 H2 HO H3 H4 H5 He.
  apply (C46_compiled_programs_run_as_evaluated_partial host (d :: ds) (fd_name d) (map snd (fd_params d)) (fd_ret d) args ws st sp _ H1 H2 HO H3); [cbn [prog_sig map assoc]; unfold def_sig at 1; rewrite String.eqb_refl; reflexivity|exact H4|exact H5|].
  apply run_head. exact He.
Qed.
Lemma in_body d ds : wt_prog (d :: ds) = true -> wt (prog_sig ds) (fd_ret d) (fd_params d) (fd_body d) = true.
Proof. cbn [wt_prog]. intros H. repeat match goal with H : _ && _ = true |- _ => apply andb_prop in H as (? & ?) end. assumption. Qed.

(** A sequence seen as the list of its elements ([seq_items], SpecLang.v: the bytes of
    a buffer and the characters of a string count as sequences of length one).
    [sort v w]: both buffers, both strings of one kind, or both lists. *)
Definition sort (v w : value) : Prop :=
  match v, w with CBuff _, CBuff _ | CAscii _, CAscii _ | CUtf8 _, CUtf8 _ | CList _, CList _ => True | _, _ => False end.
Lemma slice_items t v i j : is_seq t = true -> has_type t v -> 0 <= i <= j -> j <= seq_len v ->
  sort v (seq_slice v i j) /\ seq_len (seq_slice v i j) = j - i /\
  forall k, 0 <= k < j - i -> nth_error (seq_items (seq_slice v i j)) (Z.to_nat k) = nth_error (seq_items v) (Z.to_nat (i + k)).
Proof.
  intros Ht Hv Hi Hj. split; [destruct t; try discriminate; destruct v; try contradiction; exact I|].
  assert (Hk : forall A (l : list A) k, 0 <= k < j - i -> nth_error (sublist l i j) (Z.to_nat k) = nth_error l (Z.to_nat (i + k))).
  { intros A l k Hk. unfold sublist. assert (HH : forall n m (l : list A), (m < n)%nat -> nth_error (firstn n l) m = nth_error l m).
    { clear. induction n as [|n IH]; intros m l Hm; [lia|]. destruct l as [|x l]; [destruct m; reflexivity|]. destruct m as [|m]; [reflexivity|]. cbn. apply IH. lia. }
    rewrite HH by lia. assert (HS : forall n m (l : list A), nth_error (skipn n l) m = nth_error l (n + m)).
    { clear. induction n as [|n IH]; intros m l; [reflexivity|]. destruct l as [|x l]; [destruct m; reflexivity|]. cbn. apply IH. }
    rewrite HS. f_equal. lia. }
  assert (Hl : forall A (l : list A), j <= Z.of_nat (length l) -> Z.of_nat (length (sublist l i j)) = j - i).
  { intros A l Hl. unfold sublist. rewrite firstn_length, skipn_length. lia. }
  destruct t; try discriminate; destruct v; try contradiction; cbn [seq_slice seq_len seq_items] in *; (split; [apply Hl; exact Hj|]); intros k Hkk; rewrite ?nth_error_map', Hk by exact Hkk; reflexivity.
Qed.

(** ** C57 *)
(** A function whose body is [(slice? a l r)], the operands yielding the sequence [v]
    and the positions [l] and [r]: if [l <= r] and [r] is at most the length, the
    call returns [some] of the elements at positions [l] to [r - 1], otherwise [none].
    Positions [l] of [2^32] and more are left out when [r] is at most the length. *)
Theorem C57_slice_partial : forall {HS} {CH : chain HS} host d ds args ws (st : store HS) sp a i j v l r h1 h2 h3,
  wt_prog (d :: ds) = true -> own_names (d :: ds) -> host_ok (module_env host (d :: ds)) -> ready (d :: ds) st sp ->
  Forall2 has_type (map snd (fd_params d)) args -> rep_list (smem st) (fun a => a < sp) (map snd (fd_params d)) args ws ->
  let env := combine (map fst (fd_params d)) args in
  fd_body d = ESlice a i j ->
  eval true (run_defs true ds) a env (shost st) = Some (Done v h1) -> eval true (run_defs true ds) i env h1 = Some (Done (CUInt l) h2) ->
  eval true (run_defs true ds) j env h2 = Some (Done (CUInt r) h3) ->
  0 <= l -> has_type (ty_of a) v -> l < 2 ^ 32 \/ seq_len v < r ->
  (l <= r <= seq_len v -> exists w, behaves (module_env host (d :: ds)) (fd_name d) ws st sp (fd_ret d) (Done (CSome w) h3) /\
     sort v w /\ seq_len w = r - l /\ forall k, 0 <= k < r - l -> nth_error (seq_items w) (Z.to_nat k) = nth_error (seq_items v) (Z.to_nat (l + k))) /\
  (~ l <= r <= seq_len v -> behaves (module_env host (d :: ds)) (fd_name d) ws st sp (fd_ret d) (Done CNone h3)).
Proof.
  intros HS CH host d ds args ws st sp a i j v l r h1 h2 h3 H1 H2 HO H3 H4 H5 env Hb Ea Ei Ej Hl Hv Hlow.
  pose proof (in_body d ds H1) as Hw. rewrite Hb in Hw. cbn [wt] in Hw. repeat match goal with H : _ && _ = true |- _ => apply andb_prop in H as (? & ?) end.
  assert (Hev : eval true (run_defs true ds) (fd_body d) env (shost st) = Some (Done (if (l <=? r) && (r <=? seq_len v) then CSome (seq_slice v l r) else CNone) h3)).
  { rewrite Hb. cbn [eval]. unfold bind. rewrite Ea, Ei, Ej. unfold unless. cbn [andb]. replace ((2 ^ 32 <=? l) && (r <=? seq_len v)) with false; [reflexivity|].
    symmetry. apply andb_false_iff. destruct Hlow; [left; apply Z.leb_gt; assumption|right; apply Z.leb_gt; assumption]. }
  pose proof (body_behaves host d ds args ws st sp _ H1 H2 HO H3 H4 H5 Hev) as K. cbv beta iota in K. split.
  - intros Hr. rewrite (proj2 (Z.leb_le l r)), (proj2 (Z.leb_le r (seq_len v))) in K by (clear - Hr; lia). cbn [andb] in K. exists (seq_slice v l r). split; [exact K|].
    destruct Hr as (Hr1 & Hr2). apply (slice_items (ty_of a)); [assumption|exact Hv|split; [exact Hl|exact Hr1]|exact Hr2].
  - intros Hr. replace ((l <=? r) && (r <=? seq_len v)) with false in K; [exact K|]. symmetry. apply andb_false_iff. destruct (Z.leb_spec l r); [right; apply Z.leb_gt; lia|left; reflexivity].
Qed.
Print Assumptions C57_slice_partial.
Definition sb4 : expr := EVar (TAscii 4) "s".
Definition ex_slice : fundef := mkdef "f" [("s", TAscii 4); ("x", TUInt); ("y", TUInt)] (TOpt (TAscii 4)) (ESlice sb4 (EVar TUInt "x") (EVar TUInt "y")).
(** the string argument "abc" is at 5 *)
Lemma ex_str : rep (smem ex_st) (fun a => a < 9) (TAscii 4) (CAscii [97; 98; 99]) [VI32 5; VI32 3].
Proof. apply (ascii_in_mem _ _ 4 [97; 98; 99] 5); [vm_compute; reflexivity|lia|cbn; lia|cbn; lia]. Qed.
Lemma ex_str_ty n : 3 <= n -> has_type (TAscii n) (CAscii [97; 98; 99]).
Proof. intros Hn. cbn [has_type length]. split; [lia|]. repeat (apply Forall_cons; [unfold clarity_ascii; lia|]). apply Forall_nil. Qed.
Lemma ex_ready d : prog_lits [d] = [] -> 9 + frames [d] <= 65536 -> ready [d] ex_st 9.
Proof. intros HL HF. split; [reflexivity|eexists; reflexivity|lia|change (msize (smem ex_st)) with 65536; lia|vm_compute; discriminate|rewrite HL; apply Forall_nil]. Qed.
Example C57_ex : wt_prog [ex_slice] = true /\ own_names [ex_slice] /\ ready [ex_slice] ex_st 9 /\
  rep_list (smem ex_st) (fun a => a < 9) [TAscii 4; TUInt; TUInt] [CAscii [97; 98; 99]; CUInt 1; CUInt 3] ([VI32 5; VI32 3] ++ [VI64 1; VI64 0] ++ [VI64 3; VI64 0] ++ []) /\
  match invoke (calls_of ex_slice) 60 "f" [VI32 5; VI32 3; VI64 1; VI64 0; VI64 3; VI64 0] ex_st with RVals ws _ => ws = [VI32 1; VI32 6; VI32 2] | _ => False end.
Proof.
  split; [reflexivity|]. split. { intros d [<-|[]]. vm_compute; reflexivity. } split; [apply ex_ready; [reflexivity|vm_compute; discriminate]|].
  split. { constructor; [exact ex_str|]. constructor; [split; reflexivity|]. constructor; [split; reflexivity|constructor]. } vm_compute. reflexivity.
Qed.
(** a left position of [2^64] is taken for 0: [(slice? "abc" u18446744073709551616 u1)]
    is [none], but compiled yields [(some "a")] *)
Theorem C57_large_left_end_refuted :
  wt_prog [ex_slice] = true /\ ready [ex_slice] ex_st 9 /\
  run_defs false [ex_slice] "f" [CAscii [97; 98; 99]; CUInt (2 ^ 64); CUInt 1] tt = Some (Done CNone tt) /\
  rep_list (smem ex_st) (fun a => a < 9) [TAscii 4; TUInt; TUInt] [CAscii [97; 98; 99]; CUInt (2 ^ 64); CUInt 1] ([VI32 5; VI32 3] ++ [VI64 0; VI64 1] ++ [VI64 1; VI64 0] ++ []) /\
  exists st', calls (calls_of ex_slice) "f" [VI32 5; VI32 3; VI64 0; VI64 1; VI64 1; VI64 0] ex_st (RVals [VI32 1; VI32 5; VI32 1] st') /\
    rep (smem st') (fun _ => True) (TOpt (TAscii 4)) (CSome (CAscii [97])) [VI32 1; VI32 5; VI32 1].
Proof.
  split; [reflexivity|]. split; [apply ex_ready; [reflexivity|vm_compute; discriminate]|]. split; [vm_compute; reflexivity|].
  split. { constructor; [exact ex_str|]. constructor; [split; reflexivity|]. constructor; [split; reflexivity|constructor]. }
  exists ex_st. split; [apply (calls_compute _ 60); [vm_compute; reflexivity|discriminate]|].
  cbn [rep]. eexists. split; [reflexivity|]. apply (ascii_in_mem _ _ 4 [97] 5); [vm_compute; reflexivity|lia|cbn; lia|auto].
Qed.
Print Assumptions C57_large_left_end_refuted.

(** ** C58 *)
(** A function whose body is [(replace-at? a i b)], the operands yielding the sequence
    [v], the position [n] and the value [w]: if [n] is a position of [v], the call
    returns [some] of the sequence that has [w] at [n] and is otherwise [v]; if not,
    [none].  An empty buffer or string in the place of an element aborts. *)
Lemma put_items t v n w c : is_seq t = true -> has_type t v -> has_type (elem_ty t) w -> 0 <= n < seq_len v -> seq_put v n w = Some c ->
  sort v c /\ seq_len c = seq_len v /\ nth_error (seq_items c) (Z.to_nat n) = Some w /\ forall k, 0 <= k -> k <> n -> nth_error (seq_items c) (Z.to_nat k) = nth_error (seq_items v) (Z.to_nat k).
Proof.
  intros Ht Hv Hw Hn Hp. pose proof (proj2 (put_type _ _ _ _ _ Ht Hv Hn Hp Hw)) as Hlc.
  assert (HA : forall A (l : list A) x, n < Z.of_nat (length l) -> nth_error (put l n x) (Z.to_nat n) = Some x).
  { intros A l x Hl. unfold put. rewrite nth_error_app2 by (rewrite firstn_length; lia). rewrite firstn_length. replace (Z.to_nat n - _)%nat with 0%nat by lia. reflexivity. }
  assert (HB : forall A (l : list A) x k, n < Z.of_nat (length l) -> 0 <= k -> k <> n -> nth_error (put l n x) (Z.to_nat k) = nth_error l (Z.to_nat k)).
  { intros A l x k Hl Hk Hkn. unfold put. rewrite <- (firstn_skipn (Z.to_nat n) l) at 3. destruct (Z_lt_le_dec k n).
    - rewrite !nth_error_app1 by (rewrite firstn_length; lia). reflexivity.
    - rewrite !nth_error_app2 by (rewrite firstn_length; lia). rewrite firstn_length. replace (Z.to_nat k - Nat.min (Z.to_nat n) (length l))%nat with (S (Z.to_nat k - Z.to_nat n - 1))%nat by lia.
      destruct (skipn (Z.to_nat n) l) as [|y q] eqn:Es. { apply (f_equal (@length A)) in Es. rewrite skipn_length in Es. cbn [length] in Es. lia. }
      cbn [nth_error]. f_equal. change (y :: q) with ([y] ++ q) in Es. apply (f_equal (skipn 1)) in Es. cbn [app skipn] in Es. rewrite <- Es.
      clear. generalize (Z.to_nat n). intros m. revert l. induction m as [|m IH]; intros l; [reflexivity|]. destruct l as [|z l]; [reflexivity|]. cbn [skipn] in *. destruct l; [rewrite skipn_nil in *; destruct m; reflexivity|]. exact (IH (a :: l)). }
  split; [|split; [exact Hlc|]].
  - destruct t; try discriminate; destruct v; try contradiction; cbn [seq_put] in Hp; destruct w; try discriminate; repeat match type of Hp with (match ?x with _ => _ end) = _ => destruct x; try discriminate end; injection Hp as <-; exact I.
  - destruct t; try discriminate; destruct v; try contradiction; cbn [elem_ty has_type seq_len] in *.
    1-3: destruct w; try contradiction; cbn [seq_put] in Hp; match type of Hp with (match ?x with _ => _ end) = _ => destruct x as [|y [|? ?]]; try discriminate end; injection Hp as <-; cbn [seq_items];
      (split; [rewrite nth_error_map', HA by lia; reflexivity|]); intros k Hk Hkn; rewrite !nth_error_map', HB by lia; reflexivity.
    assert (c = CList (put vs n w)) by (destruct w; cbn [seq_put] in Hp; congruence). subst c. cbn [seq_items]. split; [apply HA; lia|]. intros k Hk Hkn. apply HB; lia.
Qed.
Theorem C58_replace_at_partial : forall {HS} {CH : chain HS} host d ds args ws (st : store HS) sp a i b v n w h1 h2 h3,
  wt_prog (d :: ds) = true -> own_names (d :: ds) -> host_ok (module_env host (d :: ds)) -> ready (d :: ds) st sp ->
  Forall2 has_type (map snd (fd_params d)) args -> rep_list (smem st) (fun a => a < sp) (map snd (fd_params d)) args ws ->
  let env := combine (map fst (fd_params d)) args in
  fd_body d = EReplaceAt a i b ->
  eval true (run_defs true ds) a env (shost st) = Some (Done v h1) -> eval true (run_defs true ds) i env h1 = Some (Done (CUInt n) h2) ->
  eval true (run_defs true ds) b env h2 = Some (Done w h3) ->
  0 <= n -> has_type (ty_of a) v -> has_type (ty_of b) w ->
  seq_len w = 1 \/ (exists l, v = CList l) ->
  (n < seq_len v -> exists c, behaves (module_env host (d :: ds)) (fd_name d) ws st sp (fd_ret d) (Done (CSome c) h3) /\
     sort v c /\ seq_len c = seq_len v /\ nth_error (seq_items c) (Z.to_nat n) = Some w /\
     forall k, 0 <= k -> k <> n -> nth_error (seq_items c) (Z.to_nat k) = nth_error (seq_items v) (Z.to_nat k)) /\
  (seq_len v <= n -> behaves (module_env host (d :: ds)) (fd_name d) ws st sp (fd_ret d) (Done CNone h3)).
Proof.
  intros HS CH host d ds args ws st sp a i b v n w h1 h2 h3 H1 H2 HO H3 H4 H5 env Hb Ea Ei Ej Hn Hv Hw Hsort.
  pose proof (in_body d ds H1) as Hwt. rewrite Hb in Hwt. cbn [wt] in Hwt. repeat match goal with H : _ && _ = true |- _ => apply andb_prop in H as (? & ?) end.
  assert (Hw' : has_type (elem_ty (ty_of a)) w) by (eapply widens_has_type; eassumption).
  assert (Hne : empty_for v w = false).
  { destruct Hsort as [Hl1|(l & ->)]; [|reflexivity]. destruct v; try reflexivity; destruct w; try reflexivity; cbn [empty_for seq_len] in *; match goal with |- (match ?q with _ => _ end) = _ => destruct q; [discriminate|reflexivity] end. }
  assert (Hput : exists c, seq_put v n w = Some c) by (eapply put_total; eauto). destruct Hput as (c & Hc). split.
  - intros Hlt. assert (Hev : eval true (run_defs true ds) (fd_body d) env (shost st) = Some (Done (CSome c) h3)).
    { rewrite Hb. cbn [eval]. unfold bind. rewrite Ea, Ei, Ej. rewrite (proj2 (Z.ltb_lt _ _) Hlt), Hne, Hc. reflexivity. }
    exists c. split; [exact (body_behaves host d ds args ws st sp _ H1 H2 HO H3 H4 H5 Hev)|]. eapply put_items; eauto.
  - intros Hge. assert (Hev : eval true (run_defs true ds) (fd_body d) env (shost st) = Some (Done CNone h3)).
    { rewrite Hb. cbn [eval]. unfold bind. rewrite Ea, Ei, Ej. rewrite (proj2 (Z.ltb_ge _ _) Hge). unfold unless. rewrite Hne. reflexivity. }
    exact (body_behaves host d ds args ws st sp _ H1 H2 HO H3 H4 H5 Hev).
Qed.
Print Assumptions C58_replace_at_partial.
Theorem C58_empty_replacement_aborts : forall {HS} {CH : chain HS} host d ds args ws (st : store HS) sp a i b v n w h1 h2 h3,
  wt_prog (d :: ds) = true -> own_names (d :: ds) -> host_ok (module_env host (d :: ds)) -> ready (d :: ds) st sp ->
  Forall2 has_type (map snd (fd_params d)) args -> rep_list (smem st) (fun a => a < sp) (map snd (fd_params d)) args ws ->
  let env := combine (map fst (fd_params d)) args in
  fd_body d = EReplaceAt a i b ->
  eval true (run_defs true ds) a env (shost st) = Some (Done v h1) -> eval true (run_defs true ds) i env h1 = Some (Done (CUInt n) h2) ->
  eval true (run_defs true ds) b env h2 = Some (Done w h3) -> has_type (ty_of a) v -> has_type (ty_of b) w ->
  n < seq_len v -> (forall l, v <> CList l) -> seq_len w = 0 ->
  behaves (module_env host (d :: ds)) (fd_name d) ws st sp (fd_ret d) (Abort err_buff_len).
Proof.
  intros HS CH host d ds args ws st sp a i b v n w h1 h2 h3 H1 H2 HO H3 H4 H5 env Hb Ea Ei Ej Hv Hw Hn Hnl Hw0.
  pose proof (in_body d ds H1) as Hwt. rewrite Hb in Hwt. cbn [wt] in Hwt. repeat match goal with H : _ && _ = true |- _ => apply andb_prop in H as (? & ?) end.
  assert (Hw' : has_type (elem_ty (ty_of a)) w) by (eapply widens_has_type; eassumption).
  assert (Hne : empty_for v w = true).
  { destruct (ty_of a); try discriminate; destruct v; try contradiction; try (exfalso; eapply Hnl; reflexivity); cbn [elem_ty has_type] in Hw'; destruct w; try contradiction;
      cbn [empty_for seq_len] in *; match goal with |- (match ?q with _ => _ end) = _ => destruct q; [reflexivity|discriminate] end. }
  assert (Hev : eval true (run_defs true ds) (fd_body d) env (shost st) = Some (Abort err_buff_len)).
  { rewrite Hb. cbn [eval]. unfold bind. rewrite Ea, Ei, Ej. rewrite (proj2 (Z.ltb_lt _ _) Hn), Hne. reflexivity. }
  exact (body_behaves host d ds args ws st sp _ H1 H2 HO H3 H4 H5 Hev).
Qed.
Print Assumptions C58_empty_replacement_aborts.
Definition ex_replace : fundef := mkdef "f" [("s", TAscii 4); ("x", TUInt); ("y", TAscii 1)] (TOpt (TAscii 4)) (EReplaceAt sb4 (EVar TUInt "x") (EVar (TAscii 1) "y")).
Example C58_ex : wt_prog [ex_replace] = true /\ own_names [ex_replace] /\ ready [ex_replace] ex_st 9 /\
  match invoke (calls_of ex_replace) 60 "f" [VI32 5; VI32 3; VI64 1; VI64 0; VI32 3; VI32 1] ex_st with RVals ws st' => ws = [VI32 1; VI32 9; VI32 3] /\ bytes_at (smem st') 9 3 = [97; 33; 99] | _ => False end.
Proof.
  split; [reflexivity|]. split. { intros d [<-|[]]. vm_compute; reflexivity. } split; [apply ex_ready; [reflexivity|vm_compute; discriminate]|]. vm_compute. auto.
Qed.
(** an empty replacement aborts even where there is nothing to replace:
    [(replace-at? "abc" u9 "")] is [none], but compiled aborts *)
Theorem C58_empty_replacement_refuted :
  wt_prog [ex_replace] = true /\ ready [ex_replace] ex_st 9 /\
  run_defs false [ex_replace] "f" [CAscii [97; 98; 99]; CUInt 9; CAscii []] tt = Some (Done CNone tt) /\
  exists st', calls (calls_of ex_replace) "f" [VI32 5; VI32 3; VI64 9; VI64 0; VI32 0; VI32 0] ex_st (RTrap TUnreachable st') /\ gget (sglob st') "runtime-error-code" = Some (VI32 err_buff_len).
Proof.
  split; [reflexivity|]. split; [apply ex_ready; [reflexivity|vm_compute; discriminate]|]. split; [vm_compute; reflexivity|].
  eexists. split; [apply (calls_compute _ 60); [vm_compute; reflexivity|discriminate]|reflexivity].
Qed.
Print Assumptions C58_empty_replacement_refuted.

(** ** C59 *)
(** A function whose body is [(index-of a b)], the operands yielding the sequence [v]
    and the value [w]: the call returns [(some n)] exactly if [w] is the element of
    [v] at [n] and at no smaller position, and [none] exactly if [w] is no element.
    On an empty sequence the second operand is not evaluated; the statement covers
    that case if the operand calls nothing. *)
Lemma find_from_spec w xs : forall i n, find_from w xs i = Some n <-> exists k, n = i + Z.of_nat k /\ nth_error xs k = Some w /\ forall k', (k' < k)%nat -> nth_error xs k' <> Some w.
Proof.
  induction xs as [|x xs IH]; intros i n; cbn [find_from].
  - split; [discriminate|]. intros (k & _ & Hk & _). destruct k; discriminate.
  - destruct (veqb w x) eqn:Ev.
    + apply veqb_spec in Ev. subst x. split.
      * intros H. assert (n = i) by congruence. subst n. exists 0%nat. split; [lia|]. split; [reflexivity|]. intros k' Hk'. lia.
      * intros (k & -> & Hk & Hm). destruct k as [|k]; [f_equal; lia|]. exfalso. apply (Hm 0%nat); [lia|reflexivity].
    + rewrite IH. split; intros (k & -> & Hk & Hm).
      * exists (S k). split; [lia|]. split; [exact Hk|]. intros [|k'] Hk'; [cbn; intros Hx; injection Hx as ->; rewrite (proj2 (veqb_spec w w) eq_refl) in Ev; discriminate|]. apply Hm. lia.
      * destruct k as [|k]. { cbn in Hk. injection Hk as ->. rewrite (proj2 (veqb_spec w w) eq_refl) in Ev; discriminate. }
        exists k. split; [lia|]. split; [exact Hk|]. intros k' Hk'. apply (Hm (S k')). lia.
Qed.
Lemma find_from_none w xs : forall i, find_from w xs i = None <-> ~ In w xs.
Proof.
  induction xs as [|x xs IH]; intros i; cbn [find_from In]; [split; auto|]. destruct (veqb w x) eqn:Ev.
  - apply veqb_spec in Ev. split; [discriminate|]. intros H. exfalso. apply H. left. auto.
  - rewrite IH. split; [|tauto]. intros H [->|H']; [|auto]. rewrite (proj2 (veqb_spec w w) eq_refl) in Ev. discriminate.
Qed.
Theorem C59_index_of_partial : forall {HS} {CH : chain HS} host d ds args ws (st : store HS) sp a b v w h1 h2,
  wt_prog (d :: ds) = true -> own_names (d :: ds) -> host_ok (module_env host (d :: ds)) -> ready (d :: ds) st sp ->
  Forall2 has_type (map snd (fd_params d)) args -> rep_list (smem st) (fun a => a < sp) (map snd (fd_params d)) args ws ->
  let env := combine (map fst (fd_params d)) args in
  fd_body d = EIndexOf a b ->
  eval true (run_defs true ds) a env (shost st) = Some (Done v h1) -> eval true (run_defs true ds) b env h1 = Some (Done w h2) ->
  seq_len v <> 0 \/ pure b = true ->
  exists o, behaves (module_env host (d :: ds)) (fd_name d) ws st sp (fd_ret d) (Done (match o with Some n => CSome (CUInt n) | None => CNone end) h2) /\
    (forall n, o = Some n <-> exists k, n = Z.of_nat k /\ nth_error (seq_items v) k = Some w /\ forall k', (k' < k)%nat -> nth_error (seq_items v) k' <> Some w) /\
    (o = None <-> ~ In w (seq_items v)).
Proof.
  intros HS CH host d ds args ws st sp a b v w h1 h2 H1 H2 HO H3 H4 H5 env Hb Ea Eb Hor.
  exists (find_from w (seq_items v) 0). split; [|split; [intros n; apply (find_from_spec w (seq_items v) 0 n)|apply find_from_none]].
  assert (Hev : eval true (run_defs true ds) (fd_body d) env (shost st) = Some (Done (match find_from w (seq_items v) 0 with Some i => CSome (CUInt i) | None => CNone end) h2)).
  { rewrite Hb. cbn [eval]. unfold bind at 1. rewrite Ea. unfold unless. unfold done. rewrite Eb. cbn [andb].
    replace ((seq_len v =? 0) && negb (pure b && true)) with false; [unfold bind; rewrite Eb; reflexivity|].
    symmetry. destruct Hor as [Hl|Hp]; [rewrite (proj2 (Z.eqb_neq _ _) Hl); reflexivity|rewrite Hp; apply andb_false_r]. }
  pose proof (body_behaves host d ds args ws st sp _ H1 H2 HO H3 H4 H5 Hev) as K. exact K.
Qed.
Print Assumptions C59_index_of_partial.
Definition ex_index : fundef := mkdef "f" [("s", TAscii 4); ("x", TOpt (TAscii 1))] (TOpt TUInt) (EIndexOf sb4 (EUnwrapPanic (EVar (TOpt (TAscii 1)) "x"))).
Example C59_ex : wt_prog [ex_index] = true /\ own_names [ex_index] /\ ready [ex_index] ex_st 9 /\
  match invoke (calls_of ex_index) 60 "f" [VI32 5; VI32 3; VI32 1; VI32 1; VI32 1] ex_st with RVals ws _ => ws = [VI32 1; VI64 1; VI64 0] | _ => False end.
Proof.
  split; [reflexivity|]. split. { intros d [<-|[]]. vm_compute; reflexivity. } split; [apply ex_ready; [reflexivity|vm_compute; discriminate]|]. vm_compute. auto.
Qed.
(** on an empty sequence the second operand is skipped: [(index-of "" (unwrap-panic none))]
    aborts, but compiled yields [none] *)
Theorem C59_empty_sequence_refuted :
  wt_prog [ex_index] = true /\ ready [ex_index] ex_st 9 /\
  run_defs false [ex_index] "f" [CAscii []; CNone] tt = Some (Abort err_panic) /\
  exists st', calls (calls_of ex_index) "f" [VI32 5; VI32 0; VI32 0; VI32 0; VI32 0] ex_st (RVals [VI32 0; VI64 0; VI64 0] st').
Proof.
  split; [reflexivity|]. split; [apply ex_ready; [reflexivity|vm_compute; discriminate]|]. split; [vm_compute; reflexivity|].
  exists ex_st. apply (calls_compute _ 60); [vm_compute; reflexivity|discriminate].
Qed.
Print Assumptions C59_empty_sequence_refuted.

(** ** C60 *)
(** A function whose body is [(fold g a b)] with [g] a function of the program: when the
    operands yield the sequence [v] and the value [w], and the calls of [g] with each
    element and the value so far, first element first, yield in turn [accs], the call
    returns the last of them ([w] if there is no element); if one of the calls aborts,
    it aborts with that error. *)
Inductive folds {HS} (g : list value -> M HS value) : list value -> value -> HS -> res HS value -> Prop :=
| folds_end acc h : folds g [] acc h (Done acc h)
| folds_step x xs acc h acc' h' rs : g [x; acc] h = Some (Done acc' h') -> folds g xs acc' h' rs -> folds g (x :: xs) acc h rs
| folds_abort x xs acc h c : g [x; acc] h = Some (Abort c) -> folds g (x :: xs) acc h (Abort c).
Theorem C60_fold_user_function_partial : forall {HS} {CH : chain HS} host d ds args ws (st : store HS) sp k g t a b v w h1 h2 rs,
  wt_prog (d :: ds) = true -> own_names (d :: ds) -> host_ok (module_env host (d :: ds)) -> ready (d :: ds) st sp ->
  Forall2 has_type (map snd (fd_params d)) args -> rep_list (smem st) (fun a => a < sp) (map snd (fd_params d)) args ws ->
  let env := combine (map fst (fd_params d)) args in
  fd_body d = EFold (FUser k g) t a b ->
  eval true (run_defs true ds) a env (shost st) = Some (Done v h1) -> eval true (run_defs true ds) b env h1 = Some (Done w h2) ->
  folds (fun vs => called_as true k (run_defs true ds g vs)) (seq_items v) w h2 rs ->
  behaves (module_env host (d :: ds)) (fd_name d) ws st sp (fd_ret d) rs.
Proof.
  intros HS CH host d ds args ws st sp k g t a b v w h1 h2 rs H1 H2 HO H3 H4 H5 env Hb Ea Eb Hf.
  assert (Hev : eval true (run_defs true ds) (fd_body d) env (shost st) = Some rs).
  { rewrite Hb. cbn [eval]. unfold bind. rewrite Ea, Eb. clear - Hf. induction Hf as [acc h|x xs acc h acc' h' rs Hg Hf IH|x xs acc h c Hg]; cbn [foldF apply_fn]; unfold bind; rewrite ?Hg; auto. }
  pose proof (body_behaves host d ds args ws st sp _ H1 H2 HO H3 H4 H5 Hev) as K. destruct rs as [| |]; try exact K.
  exfalso. clear - Hf. remember (Early v0 h) as rs. induction Hf; congruence.
Qed.
Print Assumptions C60_fold_user_function_partial.
(** [(fold + a b)] on [uint] is the sum of the elements and the initial value, or
    aborts with the overflow error when it does not fit *)
Lemma apply_add (HS : Type) {CH : chain HS} (funs : string -> list value -> M HS value) x acc (h : HS) : 0 <= x -> 0 <= acc ->
  apply_fn true funs (FArith OAdd) TUInt [CUInt x; CUInt acc] h = Some (if x + acc <? 2 ^ 128 then Done (CUInt (x + acc)) h else Abort err_overflow).
Proof.
  intros Hx Ha. cbn [apply_fn]. assert (H2 : arith2 OAdd TUInt x acc = if x + acc <? 2 ^ 128 then inl (CUInt (x + acc)) else inr err_overflow).
  { cbn [arith2]. unfold exact, fitsb. rewrite (proj2 (Z.leb_le 0 (x + acc))) by lia. reflexivity. }
  assert (Hok : arith_ok (HS := HS) OAdd TUInt (CUInt x) (map ret [CUInt acc]) h = true).
  { cbn [arith_ok map foldA_ok]. unfold ret at 1. cbn [num_of]. rewrite H2. cbn [wrong2 negb andb]. destruct (_ <? _); reflexivity. }
  unfold unless. rewrite Hok. cbn [negb andb arithM foldA num_of]. rewrite H2. unfold bind. destruct (_ <? _); reflexivity.
Qed.
Lemma fold_add (HS : Type) {CH : chain HS} (funs : string -> list value -> M HS value) xs : Forall (fun x => 0 <= x) xs -> forall acc (h : HS), 0 <= acc < 2 ^ 128 ->
  foldF true funs (FArith OAdd) TUInt (map CUInt xs) (CUInt acc) h =
  Some (if acc + fold_right Z.add 0 xs <? 2 ^ 128 then Done (CUInt (acc + fold_right Z.add 0 xs)) h else Abort err_overflow).
Proof.
  induction 1 as [|x xs Hx H IH]; intros acc h Hacc; cbn [map foldF fold_right].
  - rewrite Z.add_0_r, (proj2 (Z.ltb_lt _ _)) by lia. reflexivity.
  - unfold bind. rewrite apply_add by lia. assert (Hs : 0 <= fold_right Z.add 0 xs) by (clear - H; induction H; cbn [fold_right]; lia).
    destruct (Z.ltb_spec (x + acc) (2 ^ 128)) as [Hl|Hl].
    + rewrite IH by lia. replace (x + acc + fold_right Z.add 0 xs) with (acc + (x + fold_right Z.add 0 xs)) by lia. reflexivity.
    + rewrite (proj2 (Z.ltb_ge _ _)) by lia. reflexivity.
Qed.
Theorem C60_fold_sum : forall {HS} {CH : chain HS} host d ds args ws (st : store HS) sp a b xs n h1 h2,
  wt_prog (d :: ds) = true -> own_names (d :: ds) -> host_ok (module_env host (d :: ds)) -> ready (d :: ds) st sp ->
  Forall2 has_type (map snd (fd_params d)) args -> rep_list (smem st) (fun a => a < sp) (map snd (fd_params d)) args ws ->
  let env := combine (map fst (fd_params d)) args in
  fd_body d = EFold (FArith OAdd) TUInt a b ->
  eval true (run_defs true ds) a env (shost st) = Some (Done (CList (map CUInt xs)) h1) -> eval true (run_defs true ds) b env h1 = Some (Done (CUInt n) h2) ->
  Forall (fun x => 0 <= x) xs -> 0 <= n < 2 ^ 128 ->
  behaves (module_env host (d :: ds)) (fd_name d) ws st sp (fd_ret d)
    (if n + fold_right Z.add 0 xs <? 2 ^ 128 then Done (CUInt (n + fold_right Z.add 0 xs)) h2 else Abort err_overflow).
Proof.
  intros HS CH host d ds args ws st sp a b xs n h1 h2 H1 H2 HO H3 H4 H5 env Hb Ea Eb Hxs Hn.
  assert (Hev : eval true (run_defs true ds) (fd_body d) env (shost st) = Some (if n + fold_right Z.add 0 xs <? 2 ^ 128 then Done (CUInt (n + fold_right Z.add 0 xs)) h2 else Abort err_overflow)).
  { rewrite Hb. cbn [eval]. unfold bind. rewrite Ea, Eb. cbn [seq_items]. apply fold_add; assumption. }
  pose proof (body_behaves host d ds args ws st sp _ H1 H2 HO H3 H4 H5 Hev) as K. destruct (_ <? _); exact K.
Qed.
Print Assumptions C60_fold_sum.
(** (define-private (g (x uint) (acc int)) (- acc (to-int x)))  (define-private (f (n int)) (fold g (list u1 u2 u3) n)) *)
Definition ex_g : fundef := mkdef "g" [("x", TUInt); ("acc", TInt)] TInt (EArith OSub TInt (EVar TInt "acc") [EWord WToInt TInt [EVar TUInt "x"]]).
Definition ex_fold : fundef := mkdef "f" [("n", TInt)] TInt (EFold (FUser KPrivate "g") TInt (EList 3 TUInt [ENum TUInt 1; ENum TUInt 2; ENum TUInt 3]) (EVar TInt "n")).
Example C60_ex : wt_prog [ex_fold; ex_g] = true /\ plain_prog [ex_fold; ex_g] = true /\ ready [ex_fold; ex_g] ex_st 9 /\
  folds (HS := unit) (run_defs true [ex_g] "g") (seq_items (CList [CUInt 1; CUInt 2; CUInt 3])) (CInt 2) tt (Done (CInt (-4)) tt) /\
  match invoke (module_env (fun _ => None) [ex_fold; ex_g]) 100 "f" [VI64 2; VI64 0] ex_st with RVals ws _ => ws = [VI64 18446744073709551612; VI64 18446744073709551615] | _ => False end.
Proof.
  split; [vm_compute; reflexivity|]. split; [reflexivity|]. split. { split; [reflexivity|eexists; reflexivity|lia|vm_compute; split; [discriminate|reflexivity]|vm_compute; discriminate|constructor]. }
  split. { eapply folds_step; [vm_compute; reflexivity|]. eapply folds_step; [vm_compute; reflexivity|]. eapply folds_step; [vm_compute; reflexivity|]. apply folds_end. }
  vm_compute. reflexivity.
Qed.
(** An accumulator with parts in memory: the place results are copied to moves up at
    each step, beyond the space reserved for one value, and over the list that is being
    folded.  (define-private (g (x bool) (acc (string-ascii 40))) (if (not x) acc "z"))
    (define-private (f) (fold g (list false ... false) "aa...a")) yields the initial
    value; compiled, it returns a string of length one. *)
Definition ex_a40 : list Z := repeat 97 40.
Definition ex_st2 : store unit := mkstore (write_bytes (mkmem (fun _ => 0) 65536) 0 (ex_a40 ++ [122])) [("stack-pointer", VI32 41); ("runtime-error-code", VI32 0)] tt.
Definition ex_g2 : fundef := mkdef "g" [("x", TBool); ("acc", TAscii 40)] (TAscii 40)
  (EIf (EWord WNot TBool [EVar TBool "x"]) (EVar (TAscii 40) "acc") (EBytes (TAscii 1) (CAscii [122]) 40)).
Definition ex_fold2 : fundef := mkdef "f" [] (TAscii 40) (EFold (FUser KPrivate "g") (TAscii 40) (EList 12 TBool (repeat (EBool false) 12)) (EBytes (TAscii 40) (CAscii ex_a40) 0)).
Theorem C60_in_memory_accumulator_refuted :
  wt_prog [ex_g2] = true /\ run_defs false [ex_fold2; ex_g2] "f" [] tt = Some (Done (CAscii ex_a40) tt) /\
  forall ws st', calls (module_env (fun _ => None) [ex_fold2; ex_g2]) "f" [] ex_st2 (RVals ws st') -> ~ rep (smem st') (fun _ => True) (TAscii 40) (CAscii ex_a40) ws.
Proof.
  split; [vm_compute; reflexivity|]. split; [vm_compute; reflexivity|]. intros ws st' Hc.
  assert (Hr : match invoke (module_env (fun _ => None) [ex_fold2; ex_g2]) 400 "f" [] ex_st2 with RVals ws _ => ws = [VI32 130; VI32 1] | _ => False end) by (vm_compute; reflexivity).
  destruct (invoke (module_env (fun _ => None) [ex_fold2; ex_g2]) 400 "f" [] ex_st2) as [ws0 st0| | |] eqn:Ei; try contradiction.
  assert (Hc0 : calls (module_env (fun _ => None) [ex_fold2; ex_g2]) "f" [] ex_st2 (RVals ws0 st0)) by (apply (calls_compute _ 400); [exact Ei|discriminate]).
  pose proof (calls_det _ _ _ _ _ _ Hc Hc0) as Heq. assert (ws = ws0) by congruence. subst ws. rewrite Hr. cbn [rep]. intros (p & Hp & _).
  assert (Hl : VI32 1 = VI32 (Z.of_nat (length ex_a40))) by congruence. vm_compute in Hl. discriminate.
Qed.
Print Assumptions C60_in_memory_accumulator_refuted.
