(** * InvTok.v — what a token-program instruction can do to one account.

    [change] lists every way in which the data (and owner) of an account of token program [p]
    can change, with the consent that is needed. *)
From Verif Require Import Base Codec State Pda TokenProg Cpi Tac TokProofs FrameProofs ProcProofs.

Definition same_do (a a' : account) : Prop := a_data a' = a_data a /\ a_owner a' = a_owner a.

(** Delegation is unchanged, reduced or revoked. *)
Definition delegate_kept (t t' : tokacc) : Prop := t_delegate t' = t_delegate t \/ t_delegate t' = None.

(** Extensions of a token account but for the balances in them. *)
Definition settings (x : list acct_ext) : list acct_ext :=
  map (fun e => match e with AxTransferFeeAmount _ => AxTransferFeeAmount 0 | AxConfidentialTransferAccount _ => AxConfidentialTransferAccount 0 | e => e end) x.
Lemma settings_add fee x y : add_withheld fee x = Some y -> settings y = settings x.
Proof.
  revert y. induction x as [|a r IH]; intros y H; [discriminate|].
  destruct a; cbn [add_withheld] in H;
    try (destruct (add_withheld fee r) as [r'|] eqn:E; [|discriminate]; inversion H; subst; cbn; f_equal; exact (IH r' eq_refl)).
  destruct (withheld + fee <? two64); [|discriminate]. inversion H; subst. reflexivity.
Qed.
Lemma settings_clear x : settings (clear_withheld x) = settings x.
Proof. unfold settings, clear_withheld. rewrite map_map. apply map_ext. intros []; reflexivity. Qed.
Lemma settings_conf n x : settings (set_confidential n x) = settings x.
Proof. induction x as [|a r IH]; [reflexivity|]. destruct a; cbn; unfold settings in IH; rewrite ?IH; reflexivity. Qed.
Lemma settings_guard t t' : settings (t_exts t') = settings (t_exts t) ->
  cpi_guard_locked t' = cpi_guard_locked t /\ memo_required t' = memo_required t.
Proof.
  intro H. unfold cpi_guard_locked, memo_required.
  assert (G : forall x, existsb (fun e => match e with AxCpiGuard b => b | _ => false end) x =
                        existsb (fun e => match e with AxCpiGuard b => b | _ => false end) (settings x)).
  { induction x as [|a r IH]; [reflexivity|]. cbn. rewrite IH. destruct a; reflexivity. }
  assert (M : forall x, existsb (fun e => match e with AxMemoTransfer b => b | _ => false end) x =
                        existsb (fun e => match e with AxMemoTransfer b => b | _ => false end) (settings x)).
  { induction x as [|a r IH]; [reflexivity|]. cbn. rewrite IH. destruct a; reflexivity. }
  rewrite (G (t_exts t')), (G (t_exts t)), (M (t_exts t')), (M (t_exts t)), H. split; reflexivity.
Qed.

(** Freezing and thawing needs the mint's freeze authority; spending the confidential balance needs the owner. *)
Definition state_kept (p : pubkey) (l : ledger) (sig : pubkey -> bool) (t t' : tokacc) : Prop :=
  (t_state t' = t_state t \/
   (t_state t' <> Uninitialized /\ exists m a, a_data (l (t_mint t)) = DMint m /\ m_freeze m = Some a /\ signed_for p l sig a)) /\
  (confidential_of (t_exts t) <= confidential_of (t_exts t') /\ settings (t_exts t') = settings (t_exts t) \/ signed_for p l sig (t_owner t)) /\
  (* what the delegate spends comes off its allowance; only the owner can raise the allowance *)
  (t_delegated t' <= t_delegated t /\ t_amount t + t_delegated t' <= t_amount t' + t_delegated t \/
   signed_for p l sig (t_owner t) \/ (t_owner t = system_id \/ t_owner t = incinerator_id) \/
   exists m who, a_data (l (t_mint t)) = DMint m /\ ext_permanent_delegate m = Some who /\ (p = spl_token_id -> m_exts m = [])).
Lemma state_kept_calm p l sig t t' :
  t_state t' = t_state t -> confidential_of (t_exts t) <= confidential_of (t_exts t') -> settings (t_exts t') = settings (t_exts t) -> t_amount t <= t_amount t' ->
  t_delegated t' <= t_delegated t -> state_kept p l sig t t'.
Proof. intros A B B' C D. split; [left; exact A|]. split; [left; exact (conj B B')|]. left. split; lia. Qed.

Inductive tok_change (p : pubkey) (l : ledger) (sig : pubkey -> bool) (t t' : tokacc) : Prop :=
| tc_harmless :                  (* credit, freeze, thaw, revoke, harvest *)
    t_owner t' = t_owner t -> t_close t' = t_close t -> delegate_kept t t' -> t_amount t <= t_amount t' ->
    map acct_ext_type_of (t_exts t') = map acct_ext_type_of (t_exts t) -> tok_change p l sig t t'
| tc_debit who :                 (* debit by owner, delegate or permanent delegate *)
    signed_for p l sig who ->
    (who = t_owner t \/ t_delegate t = Some who \/
     exists m, a_data (l (t_mint t)) = DMint m /\ ext_permanent_delegate m = Some who /\ (p = spl_token_id -> m_exts m = [])) ->
    t_owner t' = t_owner t -> t_close t' = t_close t -> delegate_kept t t' ->
    map acct_ext_type_of (t_exts t') = map acct_ext_type_of (t_exts t) -> tok_change p l sig t t'
| tc_ownerless :                 (* burn from an account of the system program or incinerator *)
    (t_owner t = system_id \/ t_owner t = incinerator_id) ->
    t_owner t' = t_owner t -> t_close t' = t_close t -> delegate_kept t t' ->
    map acct_ext_type_of (t_exts t') = map acct_ext_type_of (t_exts t) -> tok_change p l sig t t'
| tc_owner :                     (* anything the owner may do without giving the account away *)
    signed_for p l sig (t_owner t) -> t_owner t' = t_owner t ->
    (map acct_ext_type_of (t_exts t') = map acct_ext_type_of (t_exts t) \/
     p = t22_id /\ distinct_types (map acct_ext_type_of (t_exts t')) = true) -> tok_change p l sig t t'
| tc_give :                      (* new owner: delegation is dropped *)
    signed_for p l sig (t_owner t) -> t_delegate t' = None -> (t_native t <> None -> t_close t' = None) ->
    map acct_ext_type_of (t_exts t') = map acct_ext_type_of (t_exts t) -> t_amount t' = t_amount t -> tok_change p l sig t t'
| tc_close_authority who :       (* new close authority *)
    signed_for p l sig who -> (t_close t = Some who \/ t_close t = None /\ who = t_owner t) ->
    t_owner t' = t_owner t -> t_delegate t' = t_delegate t -> t_exts t' = t_exts t -> t_amount t' = t_amount t -> tok_change p l sig t t'.

Inductive change (p : pubkey) (l : ledger) (sig : pubkey -> bool) (k : pubkey) (d : data) : data -> pubkey -> Prop :=
| ch_init_ext m x :
    unpack_uninit_mint d = Ok m -> mint_ext_initializable x = true -> existsb (mint_ext_same x) (m_exts m) = false ->
    p = t22_id -> change p l sig k d (DMint (set_mexts (m_exts m ++ [x]) (m_len m) m)) p
| ch_init_mint m dec auth freeze :
    unpack_uninit_mint d = Ok m -> (p = spl_token_id -> m_exts m = []) -> m_len m = mint_space (m_exts m) ->
    change p l sig k d (DMint (mkMint (Some auth) 0 dec true freeze (m_exts m) (m_len m))) p
| ch_init_tok r mnt m owner amount st native imm :
    d = DRaw r -> all_zero r = true -> a_data (l mnt) = DMint m -> (p = spl_token_id \/ a_owner (l mnt) = p) ->
    (is_native_mint p mnt = false /\ amount = 0 /\ native = None \/
     is_native_mint p mnt = true /\ exists reserve, native = Some reserve /\ amount + reserve <= a_lamports (l k)) ->
    change p l sig k d (DTok (mkTok mnt owner amount None 0 st native None (init_account_exts p m imm))) p
| ch_init_multisig r m : d = DRaw r -> all_zero r = true -> change p l sig k d (DMultisig m) p
| ch_burn m n : d = DMint m -> m_init m = true -> n <= m_supply m -> change p l sig k d (DMint (set_supply n m)) p
| ch_mint_to m n a : d = DMint m -> m_init m = true -> m_auth m = Some a -> signed_for p l sig a -> n < two64 ->
    change p l sig k d (DMint (set_supply n m)) p
| ch_mint_auth m a new : d = DMint m -> m_init m = true -> m_auth m = Some a -> signed_for p l sig a ->
    change p l sig k d (DMint (set_mauth new m)) p
| ch_freeze_auth m a new : d = DMint m -> m_init m = true -> m_freeze m = Some a -> signed_for p l sig a ->
    change p l sig k d (DMint (set_mfreeze new m)) p
| ch_update_ext m old x a :
    d = DMint m -> m_init m = true -> find (mint_ext_same x) (m_exts m) = Some old -> ext_authority m old = Some a ->
    signed_for p l sig a -> mint_ext_wf x = true -> ext_withheld old = ext_withheld x -> p = t22_id ->
    change p l sig k d (DMint (set_mexts (replace_ext x (m_exts m)) (mint_space (replace_ext x (m_exts m))) m)) p
| ch_fee_withheld m c n :
    d = DMint m -> m_init m = true -> ext_fee m = Some c -> p = t22_id ->
    change p l sig k d (DMint (set_mexts (set_fee_withheld n (m_exts m)) (m_len m) m)) p
| ch_md_init m a t :
    d = DMint m -> m_init m = true -> m_auth m = Some a -> signed_for p l sig a -> ext_metadata m = None -> p = t22_id ->
    change p l sig k d (DMint (set_mexts (m_exts m ++ [MxTokenMetadata t]) (mint_space (m_exts m ++ [MxTokenMetadata t])) m)) p
| ch_md_update m a t t' :
    d = DMint m -> m_init m = true -> ext_metadata m = Some t -> tm_update_authority t = Some a -> signed_for p l sig a -> p = t22_id ->
    change p l sig k d (DMint (set_mexts (replace_metadata t' (m_exts m)) (mint_space (replace_metadata t' (m_exts m))) m)) p
| ch_mint_close m a :
    d = DMint m -> m_init m = true -> ext_close_authority m = Some a -> signed_for p l sig a -> m_supply m = 0 -> p <> spl_token_id ->
    change p l sig k d DEmpty system_id
| ch_tok t t' :
    d = DTok t -> t_mint t' = t_mint t -> t_native t' = t_native t -> (p = spl_token_id -> t_exts t = []) ->
    state_kept p l sig t t' -> tok_change p l sig t t' -> change p l sig k d (DTok t') p
| ch_tok_close t :
    d = DTok t -> (t_native t = None -> t_amount t = 0) ->
    ((t_owner t = system_id \/ t_owner t = incinerator_id) \/
     signed_for p l sig (match t_close t with Some c => c | None => t_owner t end)) ->
    confidential_of (t_exts t) = 0 ->
    change p l sig k d DEmpty system_id.

(** Every account keeps data and owner, or changes in one of these ways. *)
Definition changes (p : pubkey) (ms : list info) (l l' : ledger) : Prop :=
  forall k, same_do (l k) (l' k) \/
    (a_owner (l k) = p /\ is_wr ms k = true /\ change p l (is_sig ms) k (a_data (l k)) (a_data (l' k)) (a_owner (l' k))).

Lemma changes_refl p ms l : changes p ms l l.
Proof. intro k; left; split; reflexivity. Qed.
(** One account. *)
Lemma changes_one p ms l l' k d :
  set_data p ms k d l = Ok l' -> change p l (is_sig ms) k (a_data (l k)) d p -> changes p ms l l'.
Proof.
  intros H C. apply set_data_inv in H. destruct H as (W & O & ->). intro k'.
  destruct (pk_dec k k') as [<-|Hne]; [right; rewrite upd_same; cbn; rewrite O; auto|].
  left. rewrite upd_other by exact Hne. split; reflexivity.
Qed.
(** Two accounts. *)
Lemma changes_two p ms l l1 l2 k1 d1 k2 d2 :
  k1 <> k2 ->
  set_data p ms k1 d1 l = Ok l1 -> set_data p ms k2 d2 l1 = Ok l2 ->
  change p l (is_sig ms) k1 (a_data (l k1)) d1 p -> change p l (is_sig ms) k2 (a_data (l k2)) d2 p -> changes p ms l l2.
Proof.
  intros Hne H1 H2 C1 C2. apply set_data_inv in H1. destruct H1 as (W1 & O1 & ->).
  apply set_data_inv in H2. destruct H2 as (W2 & O2 & ->). rewrite upd_other in * by exact Hne. intro k'.
  destruct (pk_dec k2 k') as [<-|Hn2]; [right; rewrite upd_same; cbn; rewrite O2; auto|].
  rewrite upd_other by exact Hn2.
  destruct (pk_dec k1 k') as [<-|Hn1]; [right; rewrite upd_same; cbn; rewrite O1; auto|].
  rewrite upd_other by exact Hn1. left. split; reflexivity.
Qed.
Lemma changes_same p ms l l1 l2 : changes p ms l l1 -> (forall k, same_do (l1 k) (l2 k)) -> changes p ms l l2.
Proof.
  intros H S k. destruct (S k) as [A B]. destruct (H k) as [[C D]|(O & W & C)].
  - left. split; congruence.
  - right. rewrite A, B. auto.
Qed.
Lemma move_lamports_same p ms a b n l l' : move_lamports p ms a b n l = Ok l' -> forall k, same_do (l k) (l' k).
Proof.
  intros H k. apply move_lamports_inv in H. destruct H as (_ & _ & _ & _ & ->). cbv zeta.
  destruct (pk_dec b k) as [<-|H1]; [rewrite upd_same|rewrite upd_other by exact H1];
    (destruct (pk_dec a b) as [->|Hab]; [try rewrite upd_same|try (rewrite upd_other by exact Hab)]); try (split; reflexivity);
    [destruct (pk_dec b k) as [<-|H2]|destruct (pk_dec a k) as [<-|H2]];
    try rewrite upd_same; try (rewrite upd_other by assumption); split; reflexivity.
Qed.
Lemma move_native_same p ms t a b n l l' : move_native p ms t a b n l = Ok l' -> forall k, same_do (l k) (l' k).
Proof.
  unfold move_native. destruct (t_native t); intro H; [eapply move_lamports_same; eauto|].
  inversion H; subst. intro; split; reflexivity.
Qed.
Lemma changes_close p ms l l1 l2 acc dst :
  move_lamports p ms acc dst (a_lamports (l acc)) l = Ok l1 -> delete_account p ms acc l1 = Ok l2 ->
  change p l (is_sig ms) acc (a_data (l acc)) DEmpty system_id -> changes p ms l l2.
Proof.
  intros H1 H2 C. pose proof (move_lamports_same _ _ _ _ _ _ _ H1) as S. apply move_lamports_inv in H1. destruct H1 as (W & _ & O & _ & _).
  apply delete_account_inv in H2. destruct H2 as (_ & _ & ->). intro k.
  destruct (pk_dec acc k) as [<-|Hne].
  - right. rewrite upd_same. cbn. auto.
  - left. rewrite upd_other by exact Hne. apply S.
Qed.

(** ** Token account updates *)
Lemma add_withheld_types' fee x y : add_withheld fee x = Some y -> map acct_ext_type_of y = map acct_ext_type_of x.
Proof. apply add_withheld_types. Qed.
Lemma set_confidential_types n x : map acct_ext_type_of (set_confidential n x) = map acct_ext_type_of x.
Proof. induction x as [|e r IH]; [reflexivity|]. destruct e; simpl; rewrite ?IH; reflexivity. Qed.
Lemma clear_withheld_types x : map acct_ext_type_of (clear_withheld x) = map acct_ext_type_of x.
Proof. unfold clear_withheld. rewrite map_map. apply map_ext. intros []; reflexivity. Qed.

Lemma withheld_add_of fee x y : add_withheld fee x = Some y -> withheld_of y = withheld_of x + fee /\ confidential_of y = confidential_of x.
Proof.
  unfold withheld_of, confidential_of. revert y. induction x as [|a r IH]; intros y H; [discriminate|].
  destruct a; cbn [add_withheld] in H;
    try (destruct (add_withheld fee r) as [r'|] eqn:E; [|discriminate]; inversion H; subst;
         destruct (IH r' eq_refl) as [A B]; cbn [fold_right]; rewrite ?A, ?B; split; lia).
  destruct (withheld + fee <? two64); [|discriminate]. inversion H; subst. cbn [fold_right]. split; lia.
Qed.
Lemma clear_withheld_of x : withheld_of (clear_withheld x) = 0 /\ confidential_of (clear_withheld x) = confidential_of x.
Proof.
  unfold withheld_of, confidential_of, clear_withheld.
  induction x as [|a r [A B]]; [split; reflexivity|]. destruct a; cbn [map fold_right]; rewrite ?A, ?B; split; lia.
Qed.
Lemma set_confidential_of n x c : conf_payload x = Some c ->
  withheld_of (set_confidential n x) = withheld_of x /\ confidential_of (set_confidential n x) + c = confidential_of x + n.
Proof.
  unfold conf_payload, withheld_of, confidential_of. induction x as [|a r IH]; [discriminate|].
  destruct a; cbn [find_map set_confidential fold_right]; intro H;
    try (destruct (IH H) as [A B]; rewrite ?A; split; lia). inversion H; subst. split; lia.
Qed.
Lemma conf_payload_le x c : conf_payload x = Some c -> c <= confidential_of x.
Proof.
  unfold conf_payload, confidential_of. induction x as [|a r IH]; [discriminate|].
  destruct a; cbn [find_map fold_right]; intro H; try (specialize (IH H); lia).
  inversion H; subst; lia.
Qed.

Lemma ch_credit p l sig k t n x :
  (p = spl_token_id -> t_exts t = []) -> map acct_ext_type_of x = map acct_ext_type_of (t_exts t) -> t_amount t <= n ->
  confidential_of (t_exts t) <= confidential_of x -> settings x = settings (t_exts t) ->
  change p l sig k (DTok t) (DTok (set_texts x (set_amount n t))) p.
Proof. intros H T L K K'. eapply ch_tok; try reflexivity; auto; [apply state_kept_calm; [reflexivity|exact K|exact K'|exact L|apply N.le_refl]|]. apply tc_harmless; auto. left; reflexivity. Qed.
Lemma ch_credit0 p l sig k t n :
  (p = spl_token_id -> t_exts t = []) -> t_amount t <= n -> change p l sig k (DTok t) (DTok (set_amount n t)) p.
Proof. intros H L. eapply ch_tok; try reflexivity; auto; [apply state_kept_calm; [reflexivity|apply N.le_refl|reflexivity|exact L|apply N.le_refl]|]. apply tc_harmless; auto. left; reflexivity. Qed.
Lemma ch_debit p l ms cpi k t t1 m mnt auth signers amount :
  (p = spl_token_id -> t_exts t = []) -> t_mint t = mnt -> amount <= t_amount t ->
  (unpack_mint p (a_data (l mnt)) = Ok m \/ m_exts m = []) ->
  authorize_debit p l ms cpi t m auth signers amount false = Ok t1 ->
  change p l (is_sig ms) k (DTok t) (DTok (set_amount (t_amount t1 - amount) t1)) p.
Proof.
  intros Hx Hm Ham Hu H. pose proof (authorize_debit_fields _ _ _ _ _ _ _ _ _ _ _ H) as (F1 & F2 & F3 & F4 & F5 & F6 & F7).
  apply authorize_debit_inv in H. destruct H as [Hs H].
  eapply ch_tok; [reflexivity|exact F1|exact F5|exact Hx| |].
  { split; [left; exact F4|]. split; [left; cbn; rewrite F7; split; [apply N.le_refl|reflexivity]|].
    destruct H as [[Hp _]|[(Hd & La & ->)|(-> & _)]]; [| |right; left; exact Hs].
    - right; right; right. destruct Hu as [Hu|Hu].
      + apply unpack_mint_inv in Hu. rewrite Hm. exists m, auth. tauto.
      + unfold ext_permanent_delegate in Hp. rewrite Hu in Hp. discriminate.
    - left. cbn. split; lia. }
  assert (C : auth = t_owner t \/ t_delegate t = Some auth \/
     exists m, a_data (l (t_mint t)) = DMint m /\ ext_permanent_delegate m = Some auth /\ (p = spl_token_id -> m_exts m = [])).
  { destruct H as [[Hp _]|[(Hd & _)|(Ho & _)]]; auto. right; right. destruct Hu as [Hu|Hu].
    - apply unpack_mint_inv in Hu. rewrite Hm. exists m. tauto.
    - unfold ext_permanent_delegate in Hp. rewrite Hu in Hp. discriminate. }
  apply (tc_debit _ _ _ _ _ auth Hs C); cbn; auto.
  - unfold delegate_kept; cbn. destruct H as [[_ ->]|[(Hd & _ & ->)|(_ & -> & _)]]; auto.
    cbn. destruct (t_delegated t - amount =? 0); auto.
  - now rewrite F7.
Qed.

(** Token accounts stay token accounts. *)
Definition open_kept (l l' : ledger) : Prop := forall k t, a_data (l k) = DTok t -> exists t', a_data (l' k) = DTok t'.
Lemma open_set p ms k t l l' : set_data p ms k (DTok t) l = Ok l' -> open_kept l l'.
Proof.
  intros H k' t' D. apply set_data_inv in H. destruct H as (_ & _ & ->).
  destruct (pk_dec k k') as [<-|Hne]; [rewrite upd_same; cbn; eauto|rewrite upd_other by exact Hne; eauto].
Qed.
Lemma open_trans l l1 l2 : open_kept l l1 -> open_kept l1 l2 -> open_kept l l2.
Proof. intros A B k t D. destruct (A k t D) as [t' D']. exact (B k t' D'). Qed.

(** ** Each instruction *)
Lemma changes_transfer_checked e p cpi ms src mnt dst auth signers amount dec expfee l l' :
  tok_transfer_checked e p cpi ms src mnt dst auth signers amount dec expfee l = Ok l' ->
  exists m l3, unpack_mint p (a_data (l mnt)) = Ok m /\ changes p ms l l3 /\ open_kept l l3 /\ (l' = l3 \/ run_hook e m ms amount l3 = Ok l').
Proof.
  intro H. apply transfer_checked_inv in H.
  destruct H as (s & m & fee & s1 & Hs & _ & Hamt & Hsm & Hm & _ & _ & _ & _ & Ha & O1 & O2 & H).
  destruct H as [[_ ->]|(Hne & d & dx & l3 & Hd & _ & _ & _ & _ & _ & Hdx & W1 & W2 & Hn & Hh)].
  - exists m, l. split; [exact Hm|]. split; [apply changes_refl|]. split; [intros k t D; eauto|auto].
  - exists m, l3. split; [exact Hm|].
    assert (OP : open_kept l l3).
    { intros k t D. destruct (move_native_same _ _ _ _ _ _ _ _ Hn k) as [-> _]. unfold transfer_ledger. cbv zeta.
      destruct (pk_dec dst k) as [<-|N1]; [rewrite upd_same; cbn; eauto|rewrite upd_other by exact N1].
      destruct (pk_dec src k) as [<-|N2]; [rewrite upd_same; cbn; eauto|rewrite upd_other by exact N2; eauto]. }
    split; [|auto]. eapply changes_same; [|eapply move_native_same; exact Hn].
    pose proof (unpack_tok_inv _ _ _ Hs) as (Ds & _ & Xs). pose proof (unpack_tok_inv _ _ _ Hd) as (Dd & _ & Xd).
    unfold transfer_ledger. cbv zeta. rewrite (upd_other l src _ dst) by exact Hne.
    eapply (changes_two p ms l _ _ src (DTok (set_amount (t_amount s1 - amount) s1)) dst (DTok (set_texts dx (set_amount (t_amount d + (amount - fee)) d))) Hne).
    + apply set_data_ok; auto.
    + rewrite set_data_ok; auto; rewrite (upd_other l src _ dst) by exact Hne; auto.
    + rewrite Ds. rewrite (proj2 (pk_eqb_neq src dst) Hne) in Ha. eapply ch_debit; eauto.
    + rewrite Dd. apply ch_credit; auto; [|lia| |].
      * destruct (fee =? 0); [now subst|]. eapply add_withheld_types'; eauto.
      * destruct (fee =? 0); [subst; apply N.le_refl|]. destruct (withheld_add_of _ _ _ Hdx) as [_ ->]. apply N.le_refl.
      * destruct (fee =? 0); [now subst|]. exact (settings_add _ _ _ Hdx).
Qed.
Lemma changes_transfer_plain e p cpi ms src dst auth signers amount l l' :
  tok_transfer_plain e p cpi ms src dst auth signers amount l = Ok l' -> changes p ms l l'.
Proof.
  intro H. apply transfer_plain_inv in H.
  destruct H as (s & s1 & Hs & _ & Hamt & Ha & O1 & O2 & H).
  destruct H as [[_ ->]|(Hne & d & Hd & _ & _ & W1 & W2 & _ & Hn)]; [apply changes_refl|].
  eapply changes_same; [|eapply move_native_same; exact Hn].
  pose proof (unpack_tok_inv _ _ _ Hs) as (Ds & _ & Xs). pose proof (unpack_tok_inv _ _ _ Hd) as (Dd & _ & Xd).
  cbv zeta. rewrite (upd_other l src _ dst) by exact Hne.
  eapply (changes_two p ms l _ _ src (DTok (set_amount (t_amount s1 - amount) s1)) dst (DTok (set_amount (t_amount d + amount) d)) Hne).
  + apply set_data_ok; auto.
  + rewrite set_data_ok; auto; rewrite (upd_other l src _ dst) by exact Hne; auto.
  + rewrite Ds. rewrite (proj2 (pk_eqb_neq src dst) Hne) in Ha. eapply ch_debit; [exact Xs|reflexivity|exact Hamt| |exact Ha]; right; reflexivity.
  + rewrite Dd. apply ch_credit0; auto; lia.
Qed.
Lemma changes_mint_to p ms mnt dst auth signers amount l l' :
  tok_mint_to p ms mnt dst auth signers amount l = Ok l' -> changes p ms l l'.
Proof.
  intro H. apply mint_to_inv in H.
  destruct H as (d & m & Hd & _ & _ & _ & Hm & Hau & Hsg & _ & Hov & O1 & O2 & Hne & W1 & W2 & ->).
  pose proof (unpack_tok_inv _ _ _ Hd) as (Dd & _ & Xd). pose proof (unpack_mint_inv _ _ _ Hm) as (Dm & Im & _).
  assert (Hne' : dst <> mnt) by congruence.
  eapply (changes_two p ms l (upd l dst (with_data (DTok (set_amount (t_amount d + amount) d)) (l dst))) _ dst _ mnt
            (DMint (set_supply (m_supply m + amount) m)) Hne').
  + apply set_data_ok; auto.
  + rewrite set_data_ok; auto; rewrite (upd_other l dst _ mnt) by exact Hne'; auto.
  + rewrite Dd. apply ch_credit0; auto; lia.
  + rewrite Dm. eapply ch_mint_to; eauto.
Qed.
Lemma changes_burn p cpi ms src mnt auth signers amount l l' :
  tok_burn p cpi ms src mnt auth signers amount l = Ok l' -> changes p ms l l'.
Proof.
  intro H. apply burn_inv in H.
  destruct H as (s & m & s1 & Hs & Hm & _ & _ & Hamt & Hsm & Hc & Hov & O1 & O2 & Hne & W1 & W2 & ->).
  pose proof (unpack_tok_inv _ _ _ Hs) as (Ds & _ & Xs). pose proof (unpack_mint_inv _ _ _ Hm) as (Dm & Im & _).
  assert (Hne' : src <> mnt) by congruence.
  eapply (changes_two p ms l (upd l src (with_data (DTok (set_amount (t_amount s1 - amount) s1)) (l src))) _ src _ mnt
            (DMint (set_supply (m_supply m - amount) m)) Hne').
  + apply set_data_ok; auto.
  + rewrite set_data_ok; auto; rewrite (upd_other l src _ mnt) by exact Hne'; auto.
  + rewrite Ds. destruct Hc as [[Ho ->]|(_ & _ & Ha)].
    * eapply ch_tok; try reflexivity; auto; [split; [left; reflexivity|]; split; [left; split; [apply N.le_refl|reflexivity]|right; right; left; exact Ho]|]. apply tc_ownerless; auto. left; reflexivity.
    * eapply ch_debit; eauto.
  + rewrite Dm. eapply ch_burn; eauto. lia.
Qed.
Lemma changes_tok_close p cpi ms acc dst auth signers l l' :
  tok_close p cpi ms acc dst auth signers l = Ok l' -> changes p ms l l'.
Proof.
  unfold tok_close; intro H. apply bind_ok in H; destruct H as [? [_ H]].
  destruct (a_data (l acc)) eqn:D; try discriminate.
  - apply bind_ok in H; destruct H as [[] [Hp H]]. apply guard_ok, negb_true_iff, pk_eqb_neq in Hp.
    apply bind_ok in H; destruct H as [m' [Hm H]]. apply unpack_mint_inv in Hm. destruct Hm as (X & I1 & _). inversion X; subst m'.
    apply bind_ok in H; destruct H as [au [Hau H]]. apply of_option_ok in Hau.
    apply bind_ok in H; destruct H as [[] [Hv H]]. apply validate_owner_inv in Hv. destruct Hv as [<- Hv].
    apply bind_ok in H; destruct H as [[] [Hz H]]. apply guard_ok, N.eqb_eq in Hz.
    apply bind_ok in H; destruct H as [l1 [Hl H]].
    eapply changes_close; [exact Hl|exact H|]. rewrite D. eapply ch_mint_close; eauto.
  - apply bind_ok in H; destruct H as [t' [Ht H]]. apply unpack_tok_inv in Ht. destruct Ht as (X & _ & _). inversion X; subst t'.
    apply bind_ok in H; destruct H as [[] [Hz H]]. apply guard_ok in Hz. cbv zeta in H.
    apply bind_ok in H; destruct H as [[] [Hc H]].
    apply bind_ok in H; destruct H as [[] [Hcf H]]. apply bind_ok in H; destruct H as [[] [Hwh H]].
    apply bind_ok in H; destruct H as [l1 [Hl H]].
    eapply changes_close; eauto. rewrite D. apply guard_ok, N.eqb_eq in Hcf. eapply ch_tok_close; [reflexivity| | |exact Hcf].
    + intro N. rewrite N in Hz. now apply N.eqb_eq in Hz.
    + destruct (pk_eqb (t_owner t) system_id || pk_eqb (t_owner t) incinerator_id) eqn:Eo.
      * left. apply orb_true_iff in Eo. rewrite !pk_eqb_eq in Eo. exact Eo.
      * right. apply bind_ok in Hc; destruct Hc as [[] [_ Hc]]. apply validate_owner_inv in Hc. tauto.
Qed.
Lemma changes_init_ext p ms k x l l' : tok_init_ext p ms k x l = Ok l' -> changes p ms l l'.
Proof. unfold tok_init_ext; intro H; inv_ok. eapply changes_one; [exact H|]. subst. eapply ch_init_ext; eauto. Qed.
Lemma changes_init_mint e p ms k dec auth frz l l' : tok_init_mint e p ms k dec auth frz l = Ok l' -> changes p ms l l'.
Proof.
  unfold tok_init_mint; intro H; inv_ok. eapply changes_one; [exact H|]. apply ch_init_mint; auto.
  intro Hp. subst p. rewrite pk_eqb_refl in *. cbn [negb orb] in *.
  match goal with H : is_nil _ = true |- _ => now apply is_nil_eq in H end.
Qed.
Lemma changes_write_exts e p ms k m x l l' d :
  write_mint_exts e p ms k m x l = Ok l' -> a_data (l k) = d ->
  change p l (is_sig ms) k d (DMint (set_mexts x (mint_space x) m)) p -> changes p ms l l'.
Proof.
  unfold write_mint_exts. intros H <- C. inv_ok. eapply changes_one; eauto.
Qed.
Lemma changes_md_initialize e p ms md ua mnt ma n s u l l' :
  tok_md_initialize e p ms md ua mnt ma n s u l = Ok l' -> changes p ms l l'.
Proof.
  unfold tok_md_initialize; intro H; inv_ok. subst. match goal with H : unpack_mint _ _ = Ok _ |- _ => apply unpack_mint_inv in H; destruct H as (D & I1 & _) end.
  eapply changes_write_exts; [exact H|exact D|]. eapply ch_md_init; eauto.
  - left; assumption.
  - destruct (ext_metadata a2); [discriminate|reflexivity].
Qed.
Lemma md_authorized_inv p ms md ua l m t :
  md_authorized p ms md ua l = Ok (m, t) ->
  p = t22_id /\ a_data (l md) = DMint m /\ m_init m = true /\ ext_metadata m = Some t /\ tm_update_authority t = Some ua /\ is_sig ms ua = true.
Proof.
  unfold md_authorized; intro H.
  apply bind_ok in H; destruct H as [[] [Hp H]]. apply guard_ok, pk_eqb_eq in Hp.
  apply bind_ok in H; destruct H as [m' [Hm H]]. apply unpack_mint_inv in Hm. destruct Hm as (D & I1 & _).
  apply bind_ok in H; destruct H as [t' [Ht H]]. apply of_option_ok in Ht.
  apply bind_ok in H; destruct H as [[] [Hs H]]. apply guard_ok in Hs.
  apply bind_ok in H; destruct H as [[] [Ha H]]. apply guard_ok, opk_eqb_eq in Ha.
  inversion H; subst. auto 10.
Qed.
Lemma changes_md_update e p ms md ua f v l l' : tok_md_update e p ms md ua f v l = Ok l' -> changes p ms l l'.
Proof.
  unfold tok_md_update; intro H. apply bind_ok in H; destruct H as [[m t] [Ha H]]. apply md_authorized_inv in Ha.
  destruct Ha as (-> & D & I1 & Hx & Hu & Hs). cbn [fst snd] in H.
  eapply changes_write_exts; [exact H|exact D|]. eapply ch_md_update; eauto. left; exact Hs.
Qed.
Lemma changes_md_remove e p ms md ua k i l l' : tok_md_remove e p ms md ua k i l = Ok l' -> changes p ms l l'.
Proof.
  unfold tok_md_remove; intro H. apply bind_ok in H; destruct H as [[m t] [Ha H]]. apply md_authorized_inv in Ha.
  destruct Ha as (-> & D & I1 & Hx & Hu & Hs). cbn [fst snd] in H. apply bind_ok in H; destruct H as [[] [_ H]].
  eapply changes_write_exts; [exact H|exact D|]. eapply ch_md_update; eauto. left; exact Hs.
Qed.
Lemma changes_init_account e p ms k mnt owner imm l l' : tok_init_account e p ms k mnt owner imm l = Ok l' -> changes p ms l l'.
Proof.
  unfold tok_init_account; intro H.
  apply bind_ok in H; destruct H as [m [Hm H]]. apply unpack_mint_inv in Hm. destruct Hm as (Dm & _).
  apply bind_ok in H; destruct H as [[] [Ho H]]. apply guard_ok in Ho. cbv zeta in H.
  apply bind_ok in H; destruct H as [[] [Hz H]]. apply guard_ok in Hz.
  apply bind_ok in H; destruct H as [[] [Hr H]]. apply guard_ok, N.leb_le in Hr.
  destruct (a_data (l k)) eqn:D; try discriminate. apply andb_true_iff in Hz. destruct Hz as [Hz _].
  eapply changes_one; [exact H|]. rewrite D. eapply ch_init_tok; eauto.
  - apply orb_true_iff in Ho. rewrite !pk_eqb_eq in Ho. exact Ho.
  - destruct (is_native_mint p mnt); [right|left; auto]. split; [reflexivity|]. eexists. split; [reflexivity|]. lia.
Qed.
Lemma changes_sync_native p ms k l l' : tok_sync_native p ms k l = Ok l' -> changes p ms l l'.
Proof.
  unfold tok_sync_native; intro H; inv_ok. apply unpack_tok_inv in E. destruct E as (D & _ & X).
  eapply changes_one; [exact H|]. rewrite D. apply ch_credit0; auto.
Qed.
Lemma changes_init_multisig p ms k m l l' : tok_init_multisig p ms k m l = Ok l' -> changes p ms l l'.
Proof.
  unfold tok_init_multisig; intro H; inv_ok. destruct (a_data (l k)) eqn:D; try discriminate. inv_ok.
  eapply changes_one; [exact H|]. rewrite D. eapply ch_init_multisig; eauto.
Qed.
Lemma ch_owner p l sig k t t' :
  t_mint t' = t_mint t -> t_native t' = t_native t -> (p = spl_token_id -> t_exts t = []) ->
  t_state t' = t_state t -> signed_for p l sig (t_owner t) -> t_owner t' = t_owner t ->
  (map acct_ext_type_of (t_exts t') = map acct_ext_type_of (t_exts t) \/
     p = t22_id /\ distinct_types (map acct_ext_type_of (t_exts t')) = true) ->
  change p l sig k (DTok t) (DTok t') p.
Proof. intros. eapply ch_tok; eauto; [split; [left; assumption|]; split; [right; assumption|right; left; assumption]|]. apply tc_owner; auto. Qed.
Lemma changes_approve p ms cpi k d a s n l l' : tok_approve p ms cpi k d a s n l = Ok l' -> changes p ms l l'.
Proof.
  unfold tok_approve; intro H; inv_ok. apply unpack_tok_inv in E. destruct E as (D & _ & X).
  match goal with H : validate_owner _ _ _ _ _ _ = _ |- _ => apply validate_owner_inv in H; destruct H as [? ?] end.
  eapply changes_one; [exact H|]. rewrite D. apply ch_owner; auto.
Qed.
Lemma changes_revoke p ms k a s l l' : tok_revoke p ms k a s l = Ok l' -> changes p ms l l'.
Proof.
  unfold tok_revoke; intro H; inv_ok. apply unpack_tok_inv in E. destruct E as (D & _ & X).
  eapply changes_one; [exact H|]. rewrite D. eapply ch_tok; try reflexivity; auto; [apply state_kept_calm; cbn; [reflexivity|apply N.le_refl|reflexivity|lia|lia]|]. apply tc_harmless; cbn; auto; [right; reflexivity|lia].
Qed.
Lemma changes_set_authority p ms cpi k a s ty new l l' : tok_set_authority p ms cpi k a s ty new l = Ok l' -> changes p ms l l'.
Proof.
  unfold tok_set_authority; intro H. destruct (a_data (l k)) eqn:D; try discriminate.
  - apply bind_ok in H; destruct H as [m' [Hm H]]. apply unpack_mint_inv in Hm. destruct Hm as (X & I1 & _). inversion X; subst m'.
    destruct ty; try discriminate; inv_ok; (eapply changes_one; [exact H|]; rewrite D).
    + match goal with H : validate_owner _ _ _ _ _ _ = _ |- _ => apply validate_owner_inv in H; destruct H as [? ?] end.
      eapply ch_mint_auth; eauto.
    + match goal with H : validate_owner _ _ _ _ _ _ = _ |- _ => apply validate_owner_inv in H; destruct H as [? ?] end.
      eapply ch_freeze_auth; eauto.
  - apply bind_ok in H; destruct H as [t' [Ht H]]. apply unpack_tok_inv in Ht. destruct Ht as (Y & _ & X). inversion Y; subst t'.
    apply bind_ok in H; destruct H as [[] [_ H]].
    destruct ty; try discriminate; inv_ok; (eapply changes_one; [exact H|]; rewrite D);
      match goal with H : validate_owner _ _ _ _ _ _ = _ |- _ => apply validate_owner_inv in H; destruct H as [? ?] end.
    + eapply ch_tok; [reflexivity| | |exact X| |]; [destruct (t_native t); reflexivity|destruct (t_native t) eqn:En; cbn; congruence|apply state_kept_calm; destruct (t_native t); cbn; (reflexivity || lia)|].
      apply tc_give; auto; destruct (t_native t); cbn; auto; congruence.
    + eapply ch_tok; try reflexivity; [exact X|apply state_kept_calm; cbn; (reflexivity || lia)|]. eapply tc_close_authority; eauto.
      destruct (t_close t); auto.
Qed.
Lemma changes_freeze p ms k mnt a s f l l' : tok_freeze p ms k mnt a s f l = Ok l' -> changes p ms l l'.
Proof.
  unfold tok_freeze; intro H; inv_ok. apply unpack_tok_inv in E. destruct E as (D & _ & X).
  match goal with H : validate_owner _ _ _ _ _ _ = _ |- _ => apply validate_owner_inv in H; destruct H as [? ?] end.
  match goal with H : unpack_mint _ _ = Ok _ |- _ => apply unpack_mint_inv in H; destruct H as (Dm & _) end.
  eapply changes_one; [exact H|]. rewrite D. eapply ch_tok; try reflexivity; auto.
  { split; [|split; left; [split; [apply N.le_refl|reflexivity]|cbn; lia]]. right. split; [destruct f; discriminate|]. eexists _, _. split; [|split; eassumption]. cbn in *. congruence. }
  apply tc_harmless; cbn; auto; [left; reflexivity|lia].
Qed.
Lemma changes_update_ext e p ms k a s x l l' : tok_update_ext e p ms k a s x l = Ok l' -> changes p ms l l'.
Proof.
  unfold tok_update_ext; intro H; inv_ok. match goal with H : unpack_mint _ _ = Ok _ |- _ => apply unpack_mint_inv in H; destruct H as (D & I1 & _) end.
  match goal with H : validate_owner _ _ _ _ _ _ = _ |- _ => apply validate_owner_inv in H; destruct H as [? ?] end.
  eapply changes_write_exts; [exact H|exact D|]. subst p. eapply ch_update_ext; eauto.
Qed.
Lemma changes_update_acct_exts p ms k a s x l l' : tok_update_acct_exts p ms k a s x l = Ok l' -> changes p ms l l'.
Proof.
  unfold tok_update_acct_exts; intro H; inv_ok. match goal with H : unpack_tok _ _ = Ok _ |- _ => apply unpack_tok_inv in H; destruct H as (D & I1 & X) end.
  match goal with H : validate_owner _ _ _ _ _ _ = _ |- _ => apply validate_owner_inv in H; destruct H as [? ?] end.
  eapply changes_one; [exact H|]. rewrite D. apply ch_owner; auto.
Qed.
Lemma changes_confidential p ms k mnt a s i n l l' : tok_confidential p ms k mnt a s i n l = Ok l' -> changes p ms l l'.
Proof.
  unfold tok_confidential; intro H; inv_ok. match goal with H : unpack_tok _ _ = Ok _ |- _ => apply unpack_tok_inv in H; destruct H as (D & I1 & X) end.
  match goal with H : validate_owner _ _ _ _ _ _ = _ |- _ => apply validate_owner_inv in H; destruct H as [? ?] end.
  destruct i; inv_ok; (eapply changes_one; [exact H|]; rewrite D; apply ch_owner; auto; left; cbn; apply set_confidential_types).
Qed.
Lemma changes_confidential_transfer e p ms src mnt dst a s n l l' :
  tok_confidential_transfer e p ms src mnt dst a s n l = Ok l' ->
  exists m l3, unpack_mint p (a_data (l mnt)) = Ok m /\ changes p ms l l3 /\ open_kept l l3 /\ (l' = l3 \/ run_hook e m ms n l3 = Ok l').
Proof.
  unfold tok_confidential_transfer; intro H; inv_ok.
  match goal with Hs : unpack_tok _ (a_data (l src)) = Ok ?t, Hd : unpack_tok _ (a_data (l dst)) = Ok ?d, Hm : unpack_mint _ _ = Ok ?m |- _ =>
    apply unpack_tok_inv in Hs; destruct Hs as (Ds & _ & Xs); apply unpack_tok_inv in Hd; destruct Hd as (Dd & _ & Xd);
    exists m; eexists; split; [exact Hm|]; split; [|split; [|right; exact H]] end.
  2: { eapply open_trans; eapply open_set; eassumption. }
  match goal with H : validate_owner _ _ _ _ _ _ = _ |- _ => apply validate_owner_inv in H; destruct H as [? ?] end.
  eapply changes_two; eauto.
  - rewrite Ds. apply ch_owner; auto. left; cbn; apply set_confidential_types.
  - rewrite Dd. eapply ch_tok; try reflexivity; auto; [apply state_kept_calm; [reflexivity| |apply settings_conf|apply N.le_refl|apply N.le_refl]|]; [cbn [t_exts set_texts]; match goal with H : conf_payload (t_exts ?d) = Some ?c |- confidential_of (t_exts ?d) <= _ => destruct (set_confidential_of (c + n) _ _ H) as [_ SCV]; lia end|]. apply tc_harmless; cbn; auto; [left; reflexivity|lia|apply set_confidential_types].
Qed.
Lemma changes_harvest p ms m s l l' : tok_harvest p ms m s l = Ok l' -> changes p ms l l'.
Proof.
  unfold tok_harvest; intro H; inv_ok.
  match goal with Hs : unpack_tok _ _ = Ok _, Hm : unpack_mint _ _ = Ok _ |- _ => apply unpack_tok_inv in Hs; destruct Hs as (Ds & _ & Xs); apply unpack_mint_inv in Hm; destruct Hm as (Dm & Im & _) end.
  assert (Hne : s <> m) by (intro; subst; congruence).
  eapply changes_two; [exact Hne|eassumption|eassumption| |].
  - rewrite Ds. eapply ch_tok; try reflexivity; auto; [apply state_kept_calm; [reflexivity|cbn; rewrite (proj2 (clear_withheld_of _)); apply N.le_refl|apply settings_clear|cbn; lia|cbn; lia]|]. apply tc_harmless; cbn; auto; [left; reflexivity|lia|apply clear_withheld_types].
  - rewrite Dm. subst p. eapply ch_fee_withheld; eauto.
Qed.
Lemma changes_withdraw_withheld p ms m d a s l l' : tok_withdraw_withheld p ms m d a s l = Ok l' -> changes p ms l l'.
Proof.
  unfold tok_withdraw_withheld; intro H; inv_ok.
  match goal with Hs : unpack_tok _ _ = Ok _, Hm : unpack_mint _ _ = Ok _ |- _ => apply unpack_tok_inv in Hs; destruct Hs as (Ds & _ & Xs); apply unpack_mint_inv in Hm; destruct Hm as (Dm & Im & _) end.
  assert (Hne : d <> m) by (intro; subst; congruence).
  eapply changes_two; [exact Hne|eassumption|eassumption| |].
  - rewrite Ds. apply ch_credit0; auto. lia.
  - rewrite Dm. subst p. eapply ch_fee_withheld; eauto.
Qed.
Lemma changes_withdraw_withheld_from p ms m d a x s l l' : tok_withdraw_withheld_from p ms m d a x s l = Ok l' -> changes p ms l l'.
Proof.
  unfold tok_withdraw_withheld_from; intro H; inv_ok.
  match goal with Hs : unpack_tok _ (a_data (l x)) = Ok _, Hd : unpack_tok _ (a_data (_ d)) = Ok _ |- _ =>
    apply unpack_tok_inv in Hs; destruct Hs as (Ds & _ & Xs); apply unpack_tok_inv in Hd; destruct Hd as (Dd & _ & Xd) end.
  match goal with H1 : set_data _ _ x _ _ = Ok _ |- _ => pose proof H1 as H1'; apply set_data_inv in H1'; destruct H1' as (W1 & O1 & El) end.
  destruct (pk_dec x d) as [<-|Hne].
  - pose proof H as H'. apply set_data_inv in H'. destruct H' as (W2 & O2 & ->). subst. rewrite upd_same in *. cbn in *.
    inversion Dd; subst. intro k. destruct (pk_dec x k) as [<-|Hk].
    + right. rewrite !upd_same. cbn. rewrite Ds, O1. split; [reflexivity|]. split; [exact W1|].
      apply (ch_credit t22_id l (is_sig ms) x a5 (t_amount a5 + withheld_of (t_exts a5)) (clear_withheld (t_exts a5)));
        [exact Xs|apply clear_withheld_types|lia|rewrite (proj2 (clear_withheld_of _)); apply N.le_refl|apply settings_clear].
    + left. rewrite !upd_other by exact Hk. split; reflexivity.
  - rewrite El, upd_other in Dd by exact Hne. eapply changes_two; [exact Hne|eassumption|eassumption| |].
    + rewrite Ds. eapply ch_tok; try reflexivity; auto; [apply state_kept_calm; [reflexivity|cbn; rewrite (proj2 (clear_withheld_of _)); apply N.le_refl|apply settings_clear|cbn; lia|cbn; lia]|]. apply tc_harmless; cbn; auto; [left; reflexivity|lia|apply clear_withheld_types].
    + rewrite Dd. apply ch_credit0; auto. lia.
Qed.
Lemma changes_withdraw_excess e p ms k d a s l l' : tok_withdraw_excess e p ms k d a s l = Ok l' -> changes p ms l l'.
Proof.
  unfold tok_withdraw_excess; intro H. apply bind_ok in H; destruct H as [? [_ H]]. apply bind_ok in H; destruct H as [? [_ H]].
  apply bind_ok in H; destruct H as [? [_ H]]. eapply changes_same; [apply changes_refl|]. eapply move_lamports_same; eauto.
Qed.

Theorem tok_exec_changes e p cpi ms ix l l' :
  tok_exec e p cpi ms ix l = Ok l' ->
  exists l3, changes p ms l l3 /\
    (l' = l3 \/ exists m mnt n, unpack_mint p (a_data (l mnt)) = Ok m /\ open_kept l l3 /\ run_hook e m ms n l3 = Ok l').
Proof.
  unfold tok_exec; intro H.
  destruct ix; destruct (map i_key ms) as [|k1 [|k2 [|k3 [|k4 rest]]]]; try discriminate H; inv_ok;
    try (exists l'; split; [|left; reflexivity];
         first [ eapply changes_transfer_plain; eassumption | eapply changes_mint_to; eassumption
               | eapply changes_burn; eassumption | eapply changes_tok_close; eassumption
               | eapply changes_init_ext; eassumption | eapply changes_init_mint; eassumption
               | eapply changes_md_initialize; eassumption | eapply changes_md_update; eassumption
               | eapply changes_md_remove; eassumption | eapply changes_init_account; eassumption
               | eapply changes_sync_native; eassumption | eapply changes_init_multisig; eassumption
               | eapply changes_approve; eassumption | eapply changes_revoke; eassumption
               | eapply changes_set_authority; eassumption | eapply changes_freeze; eassumption
               | eapply changes_update_ext; eassumption | eapply changes_update_acct_exts; eassumption
               | eapply changes_confidential; eassumption | eapply changes_harvest; eassumption
               | eapply changes_withdraw_withheld; eassumption
               | eapply changes_withdraw_withheld_from; eassumption
               | eapply changes_withdraw_excess; eassumption ]).
  all: first [apply changes_transfer_checked in H | apply changes_confidential_transfer in H]; destruct H as (m & l3 & Hm & Hf & Op & H);
    exists l3; split; [exact Hf|]; destruct H as [H|H]; [left; exact H|right; eauto 8].
Qed.
