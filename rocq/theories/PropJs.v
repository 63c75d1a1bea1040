(** * PropJs.v — C48, C49: the JavaScript client's instruction builders and parsers. *)
From Verif Require Import Base Codec State Pda TokenProg Cpi Ata Meta Processor Builders Cli Js Tac CodecProofs PdaProofs TokProofs FrameProofs ProcProofs
  Spec SpecLemmas CreateProofs CreateSpec BuildProofs PropBuilders JsSpec Demo Demo2.

(** ** C48: the same instructions as the Rust builders make. *)
Lemma js_u64_ok n : n < 2 ^ 64 -> js_u64 (Z.of_N n) = Ok (to_le 8 n).
Proof.
  intro H. unfold js_u64. assert (E : ((0 <=? Z.of_N n)%Z && (Z.of_N n <? 2 ^ 64)%Z)%bool = true).
  { apply andb_true_intro. split; [apply Z.leb_le|apply Z.ltb_lt]; lia. }
  rewrite E. cbn [guard bind]. rewrite N2Z.id. reflexivity.
Qed.
Lemma js_u64_range z : (z < 0 \/ 2 ^ 64 <= z)%Z -> js_u64 z = Err EInvalidArgument.
Proof.
  intro H. unfold js_u64. assert (E : ((0 <=? z)%Z && (z <? 2 ^ 64)%Z)%bool = false).
  { apply andb_false_iff. destruct H; [left; apply Z.leb_gt|right; apply Z.ltb_ge]; assumption. }
  rewrite E. reflexivity.
Qed.
Lemma js_u64_inv z d : js_u64 z = Ok d -> exists n, z = Z.of_N n /\ n < 2 ^ 64 /\ d = to_le 8 n.
Proof.
  unfold js_u64. intro H. destruct ((0 <=? z)%Z && (z <? 2 ^ 64)%Z)%bool eqn:E; [|discriminate H]. injection H as <-.
  apply andb_true_iff in E. destruct E as [A B]. apply Z.leb_le in A. apply Z.ltb_lt in B. exists (Z.to_N z). split; [lia|split; [lia|reflexivity]].
Qed.

Theorem C48_create_close : forall prog w b u wtp idempotent esc d a,
  js_create_mint prog w b u wtp None (Some idempotent) = build_create_mint prog w b u wtp idempotent /\
  js_create_mint prog w b u wtp None None = build_create_mint prog w b u wtp false /\
  js_close_stuck_escrow prog esc d u w a None = build_close_stuck_escrow prog esc d u w a.
Proof. intros. split; [|split]; reflexivity. Qed.
Print Assumptions C48_create_close.

(** Wrap and Unwrap: for a single owner given as a signer, and for a multisig given by its address and its members; an amount
    that does not fit 64 bits is refused. *)
Theorem C48_wrap_unwrap : forall prog k0 k1 k2 k3 k4 k5 k6 k7 owner multisig m members n z ta some,
  n < 2 ^ 64 -> (z < 0 \/ 2 ^ 64 <= z)%Z ->
  js_wrap prog k0 k1 k2 k3 k4 k5 k6 k7 (JsSigner owner) (Z.of_N n) [] = Ok (build_wrap prog k0 k1 k2 k3 k4 k5 k6 k7 (sg_key owner) [] n) /\
  js_wrap prog k0 k1 k2 k3 k4 k5 k6 k7 (JsAddress multisig) (Z.of_N n) (m :: members) =
    Ok (build_wrap prog k0 k1 k2 k3 k4 k5 k6 k7 multisig (map sg_key (m :: members)) n) /\
  js_wrap prog k0 k1 k2 k3 k4 k5 k6 k7 ta z some = Err EInvalidArgument /\
  js_unwrap prog k0 k1 k2 k3 k4 k5 k6 k7 (JsSigner owner) (Z.of_N n) [] = Ok (build_unwrap prog k0 k1 k2 k3 k4 k5 k6 k7 (sg_key owner) [] n) /\
  js_unwrap prog k0 k1 k2 k3 k4 k5 k6 k7 (JsAddress multisig) (Z.of_N n) (m :: members) =
    Ok (build_unwrap prog k0 k1 k2 k3 k4 k5 k6 k7 multisig (map sg_key (m :: members)) n) /\
  js_unwrap prog k0 k1 k2 k3 k4 k5 k6 k7 ta z some = Err EInvalidArgument.
Proof.
  intros prog k0 k1 k2 k3 k4 k5 k6 k7 owner multisig m members n z ta some Hn Hz.
  unfold js_wrap, js_unwrap, build_wrap, build_unwrap. rewrite !(js_u64_ok n Hn), !(js_u64_range z Hz). cbn [bind pack is_nil].
  rewrite !map_map. repeat split.
Qed.
Print Assumptions C48_wrap_unwrap.

(** Syncs: the same with both optional accounts … *)
Theorem C48_sync_both : forall prog w a u md source owner,
  js_sync_to_token_2022 prog w a u None (Some source) (Some owner) = build_sync_to_token_2022 prog w a u (Some source) (Some owner) /\
  js_sync_to_spl_token prog md a w u None None None (Some source) (Some owner) = build_sync_to_spl_token prog md a w u (Some source) (Some owner).
Proof. intros. split; reflexivity. Qed.
Print Assumptions C48_sync_both.

(** … and when one is left out, JavaScript passes the program's own address in its place where Rust passes nothing, to the
    same effect: what the Rust instruction does the JavaScript one does. *)
Definition ctx_le (c c' : ctx) : Prop :=
  c_prog c' = c_prog c /\ (forall k, has_key (c_infos c) k = true -> has_key (c_infos c') k = true) /\
  (forall k, is_wr (c_infos c) k = true -> is_wr (c_infos c') k = true) /\ (forall k, is_sig (c_infos c) k = true -> is_sig (c_infos c') k = true).
Lemma ctx_le_app p ms more : ctx_le (mkCtx p ms) (mkCtx p (ms ++ more)).
Proof.
  repeat split; cbn [c_infos]; intros k H; unfold has_key, is_wr, is_sig in *; rewrite existsb_app, H; reflexivity.
Qed.
Lemma guard_le b b' err : (b = true -> b' = true) -> le (guard b err) (guard b' err).
Proof. intros H v E. unfold guard in *. destruct b; [|discriminate E]. rewrite (H eq_refl). exact E. Qed.
Lemma forallb_le {A} (f g : A -> bool) l : (forall x, f x = true -> g x = true) -> forallb f l = true -> forallb g l = true.
Proof. intros H E. rewrite forallb_forall in *. auto. Qed.
Lemma mono_invoke e c c' b ix passed seeds l : ctx_le c c' -> le (invoke_signed e c b ix passed seeds l) (invoke_signed e c' b ix passed seeds l).
Proof.
  intros (P & K & W & S). unfold invoke_signed. rewrite P. apply le_bind_same. intros _ _. apply le_bind_same. intros pdas _.
  apply le_bind; [apply guard_le, K|]. intros _ _.
  apply le_bind. { apply guard_le, forallb_le. intros m. rewrite !andb_true_iff. intros [A B]. split; [exact A|apply K, B]. }
  intros _ _. apply le_bind. { apply guard_le, forallb_le. intros m. rewrite !orb_true_iff. intros [A|A]; [left; exact A|right; apply W, A]. }
  intros _ _. apply le_bind; [|intros _ _; apply le_refl].
  apply guard_le, forallb_le. intros m. rewrite !orb_true_iff. intros [[A|A]|A]; [left; left; exact A|left; right; apply S, A|right; exact A].
Qed.
Lemma mono_update_fields e c c' p w a fs x y s : ctx_le c c' ->
  forall l, le (update_fields_if_changed e c p w a fs x y s l) (update_fields_if_changed e c' p w a fs x y s l).
Proof.
  intro K. induction fs as [|f r IH]; intro l; [apply le_refl|]. cbn [update_fields_if_changed]. apply le_bind; [|intros l1 _; apply IH].
  destruct (String.eqb _ _); [apply le_refl|]. apply mono_invoke, K.
Qed.
Lemma mono_sync_additional e c c' p w a s : ctx_le c c' ->
  forall kvs hm l, le (sync_additional e c p w a s kvs hm l) (sync_additional e c' p w a s kvs hm l).
Proof.
  intro K. induction kvs as [|[k v] r IH]; intros hm l; [apply le_refl|]. cbn [sync_additional]. apply le_bind; [|intros l1 _; apply IH].
  destruct (opt_string_eqb _ _); [apply le_refl|]. apply mono_invoke, K.
Qed.
Lemma mono_remove_stale e c c' p w a s : ctx_le c c' -> forall ks l, le (remove_stale e c p w a s ks l) (remove_stale e c' p w a s ks l).
Proof.
  intro K. induction ks as [|k r IH]; intro l; [apply le_refl|]. cbn [remove_stale]. apply le_bind; [|intros l1 _; apply IH]. apply mono_invoke, K.
Qed.
Lemma mono_add_all e c c' p w a s : ctx_le c c' -> forall kvs l, le (add_all e c p w a s kvs l) (add_all e c' p w a s kvs l).
Proof.
  intro K. induction kvs as [|[k v] r IH]; intro l; [apply le_refl|]. cbn [add_all]. apply le_bind; [|intros l1 _; apply IH]. apply mono_invoke, K.
Qed.
(** More given is no worse than less. *)
Definition opt_le {A} (x y : option A) : Prop := x = None \/ y = x.
Lemma mono_extract e c c' l u src op src' op' : ctx_le c c' -> opt_le src src' -> opt_le op op' ->
  le (extract_token_metadata e c l u src op) (extract_token_metadata e c' l u src' op').
Proof.
  intros (_ & K & _) Es Eo.
  assert (Fs : forall A (f g : info -> res A) x, (forall i, le (f i) (g i)) -> le (bind (of_option src x) f) (bind (of_option src' x) g)).
  { intros A f g x H. destruct Es as [-> | ->]; [intros v E; discriminate E|]. destruct src; [apply H|apply le_refl]. }
  assert (Fo : forall A (f g : info -> res A) x, (forall i, le (f i) (g i)) -> le (bind (of_option op x) f) (bind (of_option op' x) g)).
  { intros A f g x H. destruct Eo as [-> | ->]; [intros v E; discriminate E|]. destruct op; [apply H|apply le_refl]. }
  assert (M : le (read_metaplex_for_mint e l u src) (read_metaplex_for_mint e l u src')).
  { unfold read_metaplex_for_mint. apply Fs. intro i. apply le_refl. }
  unfold extract_token_metadata. destruct (pk_eqb (a_owner (l u)) t22_id).
  - unfold resolve_token_2022_source_metadata. apply le_bind_same. intros m _. destruct (ext_pointer m) as [[x addr]|]; [|exact M].
    apply le_bind_same. intros a _. destruct (pk_eqb a u); [apply le_refl|]. apply Fs. intro i. apply le_bind_same. intros _ _.
    destruct (pk_eqb (a_owner (l (i_key i))) t22_id); [apply le_refl|]. destruct (pk_eqb (a_owner (l (i_key i))) mpl_id); [apply le_refl|].
    apply Fo. intro p. apply le_bind_same. intros _ _. unfold cpi_emit_and_decode. apply le_bind; [|intros _ _; apply le_refl].
    apply guard_le. rewrite !andb_true_iff. intros [A B]. split; apply K; assumption.
  - destruct (pk_eqb (a_owner (l u)) spl_token_id); [exact M|apply le_refl].
Qed.
Lemma opt_hd_le ms more : opt_le (opt_hd ms) (opt_hd (ms ++ more)) /\ opt_le (opt_hd (tl ms)) (opt_hd (tl (ms ++ more))).
Proof. destruct ms as [|x [|y r]]; cbn; split; (left; reflexivity) || (right; reflexivity). Qed.
Lemma mono_sync_t22 e p i0 i1 i2 i3 rest more l :
  le (process_sync_metadata_to_token_2022 e (mkCtx p (i0 :: i1 :: i2 :: i3 :: rest)) l)
     (process_sync_metadata_to_token_2022 e (mkCtx p (i0 :: i1 :: i2 :: i3 :: rest ++ more)) l).
Proof.
  assert (K : ctx_le (mkCtx p (i0 :: i1 :: i2 :: i3 :: rest)) (mkCtx p (i0 :: i1 :: i2 :: i3 :: rest ++ more))) by exact (ctx_le_app p (i0 :: i1 :: i2 :: i3 :: rest) more).
  destruct (opt_hd_le rest more) as [O1 O2].
  unfold process_sync_metadata_to_token_2022. cbn [c_infos]. cbv zeta.
  do 6 (apply le_bind_same; intros ? _). apply le_bind; [apply mono_extract; assumption|]. intros um _. apply le_bind_same. intros m _.
  destruct (ext_metadata m) as [t|].
  - apply le_bind; [apply mono_update_fields, K|]. intros l1 _. apply le_bind; [apply mono_sync_additional, K|]. intros x _. apply mono_remove_stale, K.
  - apply le_bind; [apply mono_invoke, K|]. intros l1 _. apply mono_add_all, K.
Qed.
Lemma mono_sync_spl e p i0 i1 i2 i3 i4 i5 i6 rest more l :
  le (process_sync_metadata_to_spl_token e (mkCtx p (i0 :: i1 :: i2 :: i3 :: i4 :: i5 :: i6 :: rest)) l)
     (process_sync_metadata_to_spl_token e (mkCtx p (i0 :: i1 :: i2 :: i3 :: i4 :: i5 :: i6 :: rest ++ more)) l).
Proof.
  assert (K : ctx_le (mkCtx p (i0 :: i1 :: i2 :: i3 :: i4 :: i5 :: i6 :: rest)) (mkCtx p (i0 :: i1 :: i2 :: i3 :: i4 :: i5 :: i6 :: rest ++ more)))
    by exact (ctx_le_app p (i0 :: i1 :: i2 :: i3 :: i4 :: i5 :: i6 :: rest) more).
  destruct (opt_hd_le rest more) as [O1 O2].
  unfold process_sync_metadata_to_spl_token. cbn [c_infos]. cbv zeta.
  do 8 (apply le_bind_same; intros ? _). apply le_bind; [apply mono_extract; assumption|]. intros um _. apply le_bind_same. intros d _.
  destruct (data_is_empty _); apply mono_invoke, K.
Qed.
Theorem C48_sync_optional : forall e w a u md source owner l l', (source = None -> owner = None) ->
  (let rust := build_sync_to_token_2022 tw_id w a u source owner in let js := js_sync_to_token_2022 tw_id w a u None source owner in
   runs e (tx_metas rust) (tx_data rust) l l' -> runs e (tx_metas js) (tx_data js) l l') /\
  (let rust := build_sync_to_spl_token tw_id md a w u source owner in let js := js_sync_to_spl_token tw_id md a w u None None None source owner in
   runs e (tx_metas rust) (tx_data rust) l l' -> runs e (tx_metas js) (tx_data js) l l').
Proof.
  intros e w a u md source owner l l' No. cbv zeta. unfold runs, process_instruction.
  change (tx_data (build_sync_to_token_2022 tw_id w a u source owner)) with [4]. change (tx_data (js_sync_to_token_2022 tw_id w a u None source owner)) with [4].
  change (tx_data (build_sync_to_spl_token tw_id md a w u source owner)) with [5]. change (tx_data (js_sync_to_spl_token tw_id md a w u None None None source owner)) with [5].
  change (unpack [4]) with (Ok (@SyncMetadataToToken2022 (list N))). change (unpack [5]) with (Ok (@SyncMetadataToSplToken (list N))). cbn [bind map_instr process_instr].
  destruct source as [s|]; [|rewrite (No eq_refl)].
  - destruct owner as [o|]; [split; intro H; exact H|]. split.
    + exact (mono_sync_t22 e tw_id (meta_w w false) (meta_r a false) (meta_r u false) (meta_r t22_id false) [meta_r s false] [meta_r tw_id false] l l').
    + exact (mono_sync_spl e tw_id (meta_w md false) (meta_w a false) (meta_r w false) (meta_r u false) (meta_r mpl_id false) (meta_r system_id false) (meta_r rent_sysvar_id false)
               [meta_r s false] [meta_r tw_id false] l l').
  - split.
    + exact (mono_sync_t22 e tw_id (meta_w w false) (meta_r a false) (meta_r u false) (meta_r t22_id false) [] [meta_r tw_id false; meta_r tw_id false] l l').
    + exact (mono_sync_spl e tw_id (meta_w md false) (meta_w a false) (meta_r w false) (meta_r u false) (meta_r mpl_id false) (meta_r system_id false) (meta_r rent_sysvar_id false)
               [] [meta_r tw_id false; meta_r tw_id false] l l').
Qed.
Print Assumptions C48_sync_optional.
(** Unlike the Rust builders (C31), JavaScript keeps the optional accounts apart: given only the owner program, it is still
    the sixth (ninth) account. *)
Theorem C48_sync_places : forall w a u md source owner,
  nth_error (map i_key (tx_metas (js_sync_to_token_2022 tw_id w a u None source owner))) 4 = Some (js_or source tw_id) /\
  nth_error (map i_key (tx_metas (js_sync_to_token_2022 tw_id w a u None source owner))) 5 = Some (js_or owner tw_id) /\
  nth_error (map i_key (tx_metas (js_sync_to_spl_token tw_id md a w u None None None source owner))) 7 = Some (js_or source tw_id) /\
  nth_error (map i_key (tx_metas (js_sync_to_spl_token tw_id md a w u None None None source owner))) 8 = Some (js_or owner tw_id).
Proof. intros. destruct source, owner; repeat split; reflexivity. Qed.
Print Assumptions C48_sync_places.

(** ** C49: what the parser says is what the program does. *)
Lemma js_opt_tells m : left_out_or (js_opt m) m.
Proof. unfold js_opt, left_out_or. destruct (pk_eqb (i_key m) tw_id) eqn:E; [apply pk_eqb_eq in E; auto|apply pk_eqb_neq in E; auto]. Qed.
Lemma unpack_cases data i : unpack data = Ok i ->
  match i with
  | CreateMint x => data = [0; if x then 1 else 0]
  | Wrap n => exists r, data = 1 :: r /\ length r = 8%nat /\ from_le r = n
  | Unwrap n => exists r, data = 2 :: r /\ length r = 8%nat /\ from_le r = n
  | CloseStuckEscrow => data = [3]
  | SyncMetadataToToken2022 => data = [4]
  | SyncMetadataToSplToken => data = [5]
  | SetCanonicalPointer k => data = 6 :: k
  end.
Proof.
  unfold unpack. destruct data as [|t r]; [discriminate|]. intro H.
  destruct ((t =? 0) && Nat.eqb (length r) 1) eqn:E0.
  { apply andb_true_iff in E0. destruct E0 as [E0 L]. apply N.eqb_eq in E0. subst t. destruct r as [|b [|c q]]; try discriminate L.
    destruct (b =? 0) eqn:B0; [apply N.eqb_eq in B0; injection H as <-; subst b; reflexivity|].
    destruct (b =? 1) eqn:B1; [apply N.eqb_eq in B1; injection H as <-; subst b; reflexivity|discriminate H]. }
  destruct ((t =? 1) && Nat.eqb (length r) 8) eqn:E1.
  { apply andb_true_iff in E1. destruct E1 as [E1 L]. apply N.eqb_eq in E1. subst t. unfold try_into_array in H. rewrite L in H. injection H as <-.
    apply Nat.eqb_eq in L. exists r. auto. }
  destruct ((t =? 2) && Nat.eqb (length r) 8) eqn:E2.
  { apply andb_true_iff in E2. destruct E2 as [E2 L]. apply N.eqb_eq in E2. subst t. unfold try_into_array in H. rewrite L in H. injection H as <-.
    apply Nat.eqb_eq in L. exists r. auto. }
  destruct ((t =? 3) && Nat.eqb (length r) 0) eqn:E3.
  { apply andb_true_iff in E3. destruct E3 as [E3 L]. apply N.eqb_eq in E3. subst t. destruct r; [|discriminate L]. injection H as <-. reflexivity. }
  destruct ((t =? 4) && Nat.eqb (length r) 0) eqn:E4.
  { apply andb_true_iff in E4. destruct E4 as [E4 L]. apply N.eqb_eq in E4. subst t. destruct r; [|discriminate L]. injection H as <-. reflexivity. }
  destruct ((t =? 5) && Nat.eqb (length r) 0) eqn:E5.
  { apply andb_true_iff in E5. destruct E5 as [E5 L]. apply N.eqb_eq in E5. subst t. destruct r; [|discriminate L]. injection H as <-. reflexivity. }
  destruct ((t =? 6) && Nat.eqb (length r) 32) eqn:E6; [|discriminate H].
  apply andb_true_iff in E6. destruct E6 as [E6 L]. apply N.eqb_eq in E6. subst t. unfold try_into_array in H. rewrite L in H. injection H as <-. reflexivity.
Qed.
Lemma js_read_u64_app r more : length r = 8%nat -> js_read_u64 (r ++ more) = Ok (from_le r).
Proof.
  intro L. unfold js_read_u64. assert (E : (8 <=? N.of_nat (length (r ++ more))) = true) by (apply N.leb_le; rewrite app_length; lia).
  rewrite E. cbn [guard bind]. rewrite firstn_app, L, Nat.sub_diag, firstn_O, app_nil_r, firstn_all2 by lia. reflexivity.
Qed.
Lemma short {A} (ms : list A) (n : nat) : (n <= length ms)%nat -> exists a b, ms = a ++ b /\ length a = n.
Proof. intro H. exists (firstn n ms), (skipn n ms). split; [symmetry; apply firstn_skipn|apply firstn_length_le, H]. Qed.
(** Every instruction the program understands with its named accounts — and anything that follows — is parsed, rightly; but
    SetCanonicalPointer is unknown to the parser. *)
Lemma parse_live prog ms data more i n :
  unpack data = Ok i -> parser_needs i = Some n -> (n <= length ms)%nat ->
  exists p, js_parse (mkTwIx prog ms (data ++ more)) = Ok p /\ tells p i ms.
Proof.
  intros U P L. apply unpack_cases in U. destruct i; cbn [parser_needs] in P; try discriminate P; injection P as <-;
    destruct (short ms _ L) as (h & q & -> & Hl); clear L.
  - subst data. destruct h as [|a0 [|a1 [|a2 [|a3 [|a4 [|]]]]]]; try discriminate Hl. eexists. split; [cbn; reflexivity|].
    cbn [tells]. split; [destruct idempotent; reflexivity|]. exists a3, q. split; [reflexivity|apply js_opt_tells].
  - destruct U as (r & -> & Lr & <-). destruct h as [|a0 [|a1 [|a2 [|a3 [|a4 [|a5 [|a6 [|a7 [|a8 [|]]]]]]]]]]; try discriminate Hl.
    unfold js_parse. cbn [tx_data tx_metas app js_identify tl]. cbn [N.eqb Pos.eqb bind]. rewrite (js_read_u64_app r more Lr). cbn [bind].
    eexists. split; [reflexivity|]. split; [reflexivity|]. exists q. reflexivity.
  - destruct U as (r & -> & Lr & <-). destruct h as [|a0 [|a1 [|a2 [|a3 [|a4 [|a5 [|a6 [|a7 [|a8 [|]]]]]]]]]]; try discriminate Hl.
    unfold js_parse. cbn [tx_data tx_metas app js_identify tl]. cbn [N.eqb Pos.eqb bind]. rewrite (js_read_u64_app r more Lr). cbn [bind].
    eexists. split; [reflexivity|]. split; [reflexivity|]. exists q. reflexivity.
  - subst data. destruct h as [|a0 [|a1 [|a2 [|a3 [|a4 [|a5 [|]]]]]]]; try discriminate Hl. eexists. split; [cbn; reflexivity|].
    exists a5, q. split; [reflexivity|apply js_opt_tells].
  - subst data. destruct h as [|a0 [|a1 [|a2 [|a3 [|a4 [|a5 [|]]]]]]]; try discriminate Hl. eexists. split; [cbn; reflexivity|].
    exists a4, a5, q. split; [reflexivity|split; apply js_opt_tells].
  - subst data. destruct h as [|a0 [|a1 [|a2 [|a3 [|a4 [|a5 [|a6 [|a7 [|a8 [|]]]]]]]]]]; try discriminate Hl. eexists. split; [cbn; reflexivity|].
    exists a7, a8, q. split; [reflexivity|split; apply js_opt_tells].
Qed.
Lemma parse_short prog ms data i n :
  unpack data = Ok i -> parser_needs i = Some n -> (length ms < n)%nat -> exists err, js_parse (mkTwIx prog ms data) = Err err.
Proof.
  intros U P L. apply unpack_cases in U. exists EInvalidArgument.
  destruct i; cbn [parser_needs] in P; try discriminate P; injection P as <-; try subst data; try destruct U as (r & -> & _);
    unfold js_parse; cbn [tx_data tx_metas js_identify]; cbn [N.eqb Pos.eqb bind];
    repeat (destruct ms as [|? ms]; [reflexivity|]); exfalso; cbn [length] in L; lia.
Qed.
Theorem C49_parses : forall ix i, unpack (tx_data ix) = Ok i ->
  match parser_needs i with
  | Some n => (n <= length (tx_metas ix))%nat <-> exists p, js_parse ix = Ok p /\ tells p i (tx_metas ix)
  | None => exists err, js_parse ix = Err err
  end.
Proof.
  intros [prog ms data] i U. cbn [tx_data tx_metas] in *. destruct (parser_needs i) as [n|] eqn:P.
  - split; intro H.
    + rewrite <- (app_nil_r data). exact (parse_live prog ms data [] i n U P H).
    + destruct H as (p & H & _). destruct (Nat.le_gt_cases n (length ms)) as [L|L]; [exact L|].
      destruct (parse_short prog ms data i n U P L) as (err & E). rewrite E in H. discriminate H.
  - destruct i; try discriminate P. apply unpack_cases in U. subst data. exists EInvalidArgument. reflexivity.
Qed.
Print Assumptions C49_parses.
(** So a parsed instruction that the program understands is parsed rightly. *)
Theorem C49_right : forall ix i p, unpack (tx_data ix) = Ok i -> js_parse ix = Ok p -> tells p i (tx_metas ix).
Proof.
  intros ix i p U H. pose proof (C49_parses ix i U) as C. destruct (parser_needs i) as [n|] eqn:P.
  - destruct (Nat.le_gt_cases n (length (tx_metas ix))) as [L|L].
    + apply C in L. destruct L as (q & Hq & T). rewrite H in Hq. injection Hq as <-. exact T.
    + destruct ix as [prog ms data]. destruct (parse_short prog ms data i n U P L) as (err & E). rewrite E in H. discriminate H.
  - destruct C as (err & E). rewrite E in H. discriminate H.
Qed.
Print Assumptions C49_right.
(** The parser also accepts what the program refuses: bytes that follow a complete instruction. *)
Theorem C49_lenient : forall prog ms data b more i n,
  unpack data = Ok i -> parser_needs i = Some n -> (n <= length ms)%nat ->
  (exists p, js_parse (mkTwIx prog ms (data ++ b :: more)) = Ok p /\ tells p i ms) /\ unpack (data ++ b :: more) = Err EInvalidInstructionData.
Proof.
  intros prog ms data b more i n U P L. split; [exact (parse_live prog ms data (b :: more) i n U P L)|].
  apply unpack_cases in U. destruct i; try discriminate P; try subst data; try destruct U as (r & -> & Lr & _); cbn [app unpack]; cbn [N.eqb Pos.eqb andb];
    try reflexivity.
  - rewrite app_length, Lr. cbn [length Nat.add Nat.eqb]. reflexivity.
  - rewrite app_length, Lr. cbn [length Nat.add Nat.eqb]. reflexivity.
Qed.
Print Assumptions C49_lenient.

(** What JavaScript builds it parses back: the accounts, with privileges, and the data. *)
Theorem C49_round_trip : forall k0 k1 k2 k3 k4 k5 k6 k7 ta z multi ix idempotent n,
  n < 2 ^ 64 -> k3 <> tw_id -> k5 <> tw_id ->
  js_parse (js_create_mint tw_id k0 k1 k2 k4 (Some k3) idempotent) =
    Ok (PjCreateMint (meta_w k0 false) (meta_w k1 false) (meta_r k2 false) (Some (meta_r k3 false)) (meta_r k4 false) (js_or idempotent false)) /\
  (js_wrap tw_id k0 k1 k2 k3 k4 k5 k6 k7 ta (Z.of_N n) multi = Ok ix ->
   js_parse ix = Ok (PjWrap (meta_w k0 false) (meta_w k1 false) (meta_r k2 false) (meta_r k3 false) (meta_r k4 false) (meta_w k5 false)
                       (meta_r k6 false) (meta_w k7 false) (js_meta tw_id (Some ta) false) n)) /\
  (js_unwrap tw_id k0 k1 k2 k3 k4 k5 k6 k7 ta (Z.of_N n) multi = Ok ix ->
   js_parse ix = Ok (PjUnwrap (meta_w k0 false) (meta_w k1 false) (meta_r k2 false) (meta_r k3 false) (meta_r k4 false) (meta_r k5 false)
                       (meta_w k6 false) (meta_w k7 false) (js_meta tw_id (Some ta) false) n)) /\
  js_parse (js_close_stuck_escrow tw_id k0 k1 k2 k6 k4 (Some k5)) =
    Ok (PjCloseStuckEscrow (meta_w k0 false) (meta_w k1 false) (meta_r k2 false) (meta_r k6 false) (meta_r k4 false) (Some (meta_r k5 false))) /\
  forall source owner, source <> Some tw_id -> owner <> Some tw_id ->
    js_parse (js_sync_to_token_2022 tw_id k0 k1 k2 z source owner) =
      Ok (PjSyncToToken2022 (meta_w k0 false) (meta_r k1 false) (meta_r k2 false) (meta_r (js_or z t22_id) false)
            (option_map (fun k => meta_r k false) source) (option_map (fun k => meta_r k false) owner)) /\
    js_parse (js_sync_to_spl_token tw_id k0 k1 k2 k3 z z z source owner) =
      Ok (PjSyncToSplToken (meta_w k0 false) (meta_w k1 false) (meta_r k2 false) (meta_r k3 false) (meta_r (js_or z mpl_id) false)
            (meta_r (js_or z system_id) false) (meta_r (js_or z rent_sysvar_id) false)
            (option_map (fun k => meta_r k false) source) (option_map (fun k => meta_r k false) owner)).
Proof.
  intros k0 k1 k2 k3 k4 k5 k6 k7 ta z multi ix idempotent n Hn N3 N5.
  assert (J : forall k, k <> tw_id -> js_opt (mkInfo k false false) = Some (meta_r k false)).
  { intros k H. unfold js_opt. cbn [i_key]. apply pk_eqb_neq in H. rewrite H. reflexivity. }
  assert (O : forall o, o <> Some tw_id -> js_opt (js_meta tw_id (opt_address o) false) = option_map (fun k => meta_r k false) o).
  { intros [k|] H; [apply J; intro X; apply H; rewrite X; reflexivity|]. reflexivity. }
  assert (R : js_read_u64 (to_le 8 n) = Ok n).
  { rewrite <- (app_nil_r (to_le 8 n)), js_read_u64_app by apply length_to_le. rewrite (from_to_le 8) by exact Hn. reflexivity. }
  split; [|split; [|split; [|split]]].
  - unfold js_parse, js_create_mint. cbn [tx_data tx_metas js_identify tl]. cbn [N.eqb bind js_meta some_address js_or]. rewrite (J k3 N3).
    destruct idempotent as [[]|]; reflexivity.
  - unfold js_wrap. rewrite (js_u64_ok n Hn). cbn [bind]. intro H. injection H as <-. unfold js_parse. cbn [tx_data tx_metas js_identify tl]. cbn [N.eqb Pos.eqb bind app].
    match goal with |- bind (js_read_u64 ?d) _ = _ => replace d with (to_le 8 n) by reflexivity end. rewrite R. reflexivity.
  - unfold js_unwrap. rewrite (js_u64_ok n Hn). cbn [bind]. intro H. injection H as <-. unfold js_parse. cbn [tx_data tx_metas js_identify tl]. cbn [N.eqb Pos.eqb bind app].
    match goal with |- bind (js_read_u64 ?d) _ = _ => replace d with (to_le 8 n) by reflexivity end. rewrite R. reflexivity.
  - unfold js_parse, js_close_stuck_escrow. cbn [tx_data tx_metas js_identify]. cbn [N.eqb Pos.eqb bind js_meta some_address js_or]. rewrite (J k5 N5). reflexivity.
  - intros source owner Hs Ho. split.
    + unfold js_parse, js_sync_to_token_2022. cbn [tx_data tx_metas js_identify]. cbn [N.eqb Pos.eqb bind]. rewrite (O source Hs), (O owner Ho). reflexivity.
    + unfold js_parse, js_sync_to_spl_token. cbn [tx_data tx_metas js_identify]. cbn [N.eqb Pos.eqb bind]. rewrite (O source Hs), (O owner Ho). reflexivity.
Qed.
Print Assumptions C49_round_trip.
(** But the instructions that Rust builds for a sync are only parsed with both optional accounts; without, the parser throws. *)
Theorem C49_rust_sync_refuted : forall prog w a u md source owner, source = None \/ owner = None ->
  (exists err, js_parse (build_sync_to_token_2022 prog w a u source owner) = Err err) /\
  (exists err, js_parse (build_sync_to_spl_token prog md a w u source owner) = Err err).
Proof.
  intros prog w a u md source owner H. split; exists EInvalidArgument; destruct source, owner; try reflexivity; destruct H as [H|H]; discriminate H.
Qed.
Print Assumptions C49_rust_sync_refuted.

(** The error codes and texts are the program's. *)
Theorem C49_errors : forall code x text,
  js_error code = Some (x, text) <-> tw_error_of_code code = Ok x /\ text = tw_error_message x.
Proof.
  intros code x text. unfold js_error. destruct (N.lt_ge_cases code 16) as [L|L].
  - assert (F : forall m, (m < 16)%nat -> exists y, nth_error (map (fun y => (y, tw_error_message y)) all_tw_errors) m = Some (y, tw_error_message y) /\ tw_error_of_code (N.of_nat m) = Ok y).
    { intros m Hm. do 16 (destruct m as [|m]; [eexists; split; reflexivity|]). exfalso; lia. }
    destruct (F (N.to_nat code)) as (y & E1 & E2); [lia|]. rewrite N2Nat.id in E2.
    change (nth_error _ (N.to_nat code)) with (nth_error (map (fun y => (y, tw_error_message y)) all_tw_errors) (N.to_nat code)). rewrite E1, E2. split.
    + intro H. injection H as <- <-. auto.
    + intros [H ->]. injection H as ->. reflexivity.
  - assert (E : nth_error (map (fun y => (y, tw_error_message y)) all_tw_errors) (N.to_nat code) = None) by (apply nth_error_None; cbn; lia).
    change (nth_error _ (N.to_nat code)) with (nth_error (map (fun y => (y, tw_error_message y)) all_tw_errors) (N.to_nat code)).
    rewrite E, (tw_error_of_code_big code L). split; [intro H; discriminate H|intros [H _]; discriminate H].
Qed.
Print Assumptions C49_errors.

(** ** The hypotheses are met. *)
Example C48_example :
  js_wrap tw_id (PkRaw 1) (PkRaw 2) (PkRaw 3) spl_token_id t22_id (PkRaw 4) (PkRaw 5) (PkRaw 6) (JsSigner (mkSigner (PkRaw 7) true)) 300 [] =
    Ok (build_wrap tw_id (PkRaw 1) (PkRaw 2) (PkRaw 3) spl_token_id t22_id (PkRaw 4) (PkRaw 5) (PkRaw 6) (PkRaw 7) [] 300).
Proof. apply (C48_wrap_unwrap tw_id _ _ _ _ _ _ _ _ (mkSigner (PkRaw 7) true) (PkRaw 1) (mkSigner (PkRaw 7) true) [] 300 (-1) (JsAddress tw_id) []); [reflexivity|left; reflexivity]. Qed.
Example C49_example :
  unpack [1; 44; 1; 0; 0; 0; 0; 0; 0] = Ok (Wrap 300) /\
  js_parse (mkTwIx tw_id (map (fun n => mkInfo (PkRaw n) false true) [1; 2; 3; 4; 5; 6; 7; 8; 9; 10]) [1; 44; 1; 0; 0; 0; 0; 0; 0; 77]) =
    Ok (PjWrap (meta_w (PkRaw 1) false) (meta_w (PkRaw 2) false) (meta_w (PkRaw 3) false) (meta_w (PkRaw 4) false) (meta_w (PkRaw 5) false)
          (meta_w (PkRaw 6) false) (meta_w (PkRaw 7) false) (meta_w (PkRaw 8) false) (meta_w (PkRaw 9) false) 300).
Proof. split; reflexivity. Qed.
