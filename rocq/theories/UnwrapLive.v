(** * UnwrapLive.v — lemmas: when Unwrap succeeds. *)
From Verif Require Import Base Codec State Pda TokenProg Cpi Meta Processor Tac CodecProofs PdaProofs TokProofs FrameProofs ProcProofs
  Spec SpecLemmas CreateProofs CreateSpec WrapProofs CloseProofs InvTok InvCons HistorySpec HookSpec InvState InvTw InvHist EscProofs SolProofs HistProofs EscLive.

(** ** Burn *)
Lemma burn_live p cpi ms src mnt auth signers amount l s m :
  token_program p -> is_wr ms src = true -> is_wr ms mnt = true -> src <> mnt ->
  a_owner (l src) = p -> a_data (l src) = DTok s -> a_owner (l mnt) = p -> a_data (l mnt) = DMint m -> m_init m = true ->
  (p = spl_token_id -> t_exts s = []) -> (p = spl_token_id -> m_exts m = []) ->
  t_state s = Initialized -> t_native s = None -> amount <= t_amount s -> t_mint s = mnt ->
  ext_paused m = false -> ext_conf_mint_burn m = false -> ext_permanent_delegate m <> Some auth ->
  t_owner s = auth -> t_delegate s <> Some auth -> validate_owner p l ms auth auth signers = Ok tt -> cpi_guard_locked s = false ->
  amount <= m_supply m ->
  exists s', t_mint s' = t_mint s /\
  tok_burn p cpi ms src mnt auth signers amount l =
    Ok (upd (upd l src (with_data (DTok s') (l src))) mnt (with_data (DMint (set_supply (m_supply m - amount) m)) (l mnt))).
Proof.
  intros T Ws Wm Ne Os Ds Om Dm Im Xs Xm St Nt Le Tm Pa Cm Pd Ow De Va Gu Su. exists (set_amount (t_amount s - amount) s). split; [reflexivity|].
  unfold tok_burn. rewrite Ds. rewrite unpack_tok_ok; [|rewrite St; discriminate|exact Xs]. cbn [bind].
  rewrite Dm. rewrite unpack_mint_ok; [|exact Im|exact Xm]. cbn [bind].
  rewrite St. cbn [acct_state_eqb negb]. rewrite bind_guard_true by reflexivity. rewrite Nt. rewrite bind_guard_true by reflexivity.
  rewrite bind_guard_true by (apply N.leb_le; exact Le). rewrite bind_guard_true by (apply pk_eqb_eq; exact Tm).
  rewrite Pa, Cm. cbn [negb]. rewrite !bind_guard_true by reflexivity.
  assert (A : (if pk_eqb (t_owner s) system_id || pk_eqb (t_owner s) incinerator_id then Ok s
               else authorize_debit p l ms cpi s m auth signers amount false) = Ok s).
  { destruct (_ || _); [reflexivity|]. unfold authorize_debit.
    destruct (opk_eqb (ext_permanent_delegate m) (Some auth)) eqn:E1. { apply opk_eqb_eq in E1. contradiction. }
    destruct (opk_eqb (t_delegate s) (Some auth)) eqn:E2. { apply opk_eqb_eq in E2. contradiction. }
    rewrite Ow, Va. cbn [bind]. rewrite Gu. rewrite andb_false_r. reflexivity. }
  rewrite A. cbn [bind]. rewrite bind_guard_true by (apply N.leb_le; exact Su).
  rewrite (set_data_ok _ _ _ _ _ Ws Os). cbn [bind]. rewrite set_data_ok; [|exact Wm|rewrite upd_other by exact Ne; exact Om].
  rewrite upd_other by exact Ne. reflexivity.
Qed.

(** ** Fees *)
Lemma calc_fee_le f n : tf_bps f <= 10000 -> n < two64 -> exists x, calc_fee f n = Some x /\ x <= n.
Proof.
  intros B L. unfold calc_fee. destruct ((tf_bps f =? 0) || (n =? 0)) eqn:E. { exists 0. split; [reflexivity|lia]. }
  apply orb_false_iff in E. destruct E as [_ E]. apply N.eqb_neq in E.
  assert (R : ceil_div (n * tf_bps f) 10000 <= n).
  { unfold ceil_div. assert (X : n * tf_bps f + 10000 - 1 < 10000 * (n + 1)) by nia.
    assert (Y : (n * tf_bps f + 10000 - 1) / 10000 < n + 1) by (apply N.div_lt_upper_bound; [discriminate|exact X]). lia. }
  cbv zeta. destruct (ceil_div (n * tf_bps f) 10000 <? two64) eqn:F.
  - eexists. split; [reflexivity|]. lia.
  - apply N.ltb_ge in F. lia.
Qed.
Lemma transfer_fee_live e m n :
  (forall c, ext_fee m = Some c -> tf_bps (fc_older c) <= 10000 /\ tf_bps (fc_newer c) <= 10000) -> n < two64 ->
  exists fee, transfer_fee_of e m n = Ok fee /\ fee <= n /\ (ext_fee m = None -> fee = 0).
Proof.
  intros H L. unfold transfer_fee_of. destruct (ext_fee m) as [c|]; [|exists 0; repeat split; lia].
  destruct (H c eq_refl) as [A B]. unfold calculate_epoch_fee, epoch_fee. destruct (_ <=? _).
  - destruct (calc_fee_le _ n B L) as (x & -> & Hx). exists x. repeat split; auto; discriminate.
  - destruct (calc_fee_le _ n A L) as (x & -> & Hx). exists x. repeat split; auto; discriminate.
Qed.
Lemma add_withheld_live fee x : In XtTransferFeeAmount (map acct_ext_type_of x) -> withheld_of x + fee < two64 ->
  exists y, add_withheld fee x = Some y.
Proof.
  induction x as [|y r IH]; [intros []|]. cbn [map In withheld_of fold_right]. intros H L.
  destruct y; cbn [add_withheld]; cbn [acct_ext_type_of] in H; try (destruct H as [H|H]; [discriminate|]; destruct (IH H) as [z ->]; [exact L|eexists; reflexivity]).
  match goal with |- context [?w + fee <? two64] => assert (W : (w + fee <? two64) = true) by (apply N.ltb_lt; unfold withheld_of in L; cbn [fold_right] in L; lia) end. rewrite W. eexists; reflexivity.
Qed.

(** ** An agreeable hook *)
Lemma sum_lamports_ext ks l l' : (forall k, a_lamports (l k) = a_lamports (l' k)) -> sum_lamports ks l = sum_lamports ks l'.
Proof. intro H. unfold sum_lamports. induction ks as [|k r IH]; cbn; [reflexivity|]. rewrite H, IH. reflexivity. Qed.
Lemma hook_agrees_run e m n l src mnt dst auth extra spared four l3 :
  hook_agrees e m n l src mnt dst auth extra spared ->
  map i_key four = [src; mnt; dst; auth] -> (forall k, k <> src -> k <> dst -> l3 k = l k) ->
  exists l4, run_hook e m (four ++ extra) n l3 = Ok l4 /\ forall k, In k spared \/ is_tw_pda k = true -> l4 k = l3 k.
Proof.
  intros A K F. unfold run_hook. destruct (ext_hook m) as [p|] eqn:Q.
  2:{ exists l3. split; [reflexivity|]. intros k _. reflexivity. }
  destruct (A p Q four l3 K F) as (l2 & -> & L2 & S2). cbn [bind].
  rewrite bind_guard_true.
  2:{ unfold balanced. apply N.eqb_eq. apply sum_lamports_ext. intro k. unfold confine. destruct (_ && _); [apply L2|reflexivity]. }
  eexists. split; [reflexivity|]. intros k [I|I]; unfold confine.
  - rewrite (S2 k I). destruct (_ && _); reflexivity.
  - assert (X : hook_may l3 k = false) by (unfold hook_may; rewrite I; rewrite !orb_true_r; reflexivity). rewrite X, andb_false_r. reflexivity.
Qed.
Lemma appends_served e accounts l m n src mnt dst auth spared :
  appends_signers e accounts -> ext_hook m = None -> transfer_served e accounts l m n src mnt dst auth spared.
Proof.
  intros A Q. destruct (A l) as (ks & E & S). exists (map (fun k => meta_r k true) ks). split; [exact E|]. split.
  - intros i Hi. apply in_map_iff in Hi. destruct Hi as (k & <- & Hk). cbn [i_key i_writable i_signer meta_r]. destruct (S k Hk) as (j & J1 & J2 & J3).
    split; [rewrite <- J2; apply in_map; exact J1|]. split; [intro X; discriminate X|]. intros _. exists j. auto.
  - intros p X. rewrite Q in X. discriminate X.
Qed.

(** ** TransferChecked by the owner, with a hook that agrees *)
Lemma transfer_live e p cpi ms src mnt dst auth signers amount l s m d fee :
  token_program p -> is_wr ms src = true -> is_wr ms dst = true -> src <> dst ->
  a_owner (l src) = p -> a_data (l src) = DTok s -> a_owner (l dst) = p -> a_data (l dst) = DTok d ->
  a_data (l mnt) = DMint m -> m_init m = true ->
  (p = spl_token_id -> t_exts s = [] /\ t_exts d = [] /\ m_exts m = []) ->
  t_state s = Initialized -> t_state d = Initialized -> t_mint s = mnt -> t_mint d = mnt ->
  amount <= t_amount s -> ~ In XtNonTransferableAccount (map acct_ext_type_of (t_exts s)) ->
  ext_paused m = false ->
  (forall l3, (forall k, k <> src -> k <> dst -> l3 k = l k) -> exists l4, run_hook e m ms amount l3 = Ok l4) -> ext_permanent_delegate m <> Some auth ->
  t_owner s = auth -> t_delegate s = None -> validate_owner p l ms auth auth signers = Ok tt -> cpi_guard_locked s = false ->
  (memo_required d = true -> e_memo e = true) ->
  transfer_fee_of e m amount = Ok fee -> fee <= amount -> t_amount d + (amount - fee) < two64 ->
  (fee <> 0 -> exists dx, add_withheld fee (t_exts d) = Some dx) ->
  (t_native s <> None -> amount <= a_lamports (l src)) ->
  exists l', tok_transfer_checked e p cpi ms src mnt dst auth signers amount (m_decimals m) None l = Ok l'.
Proof.
  intros T Ws Wd Ne Os Ds Od Dd Dm Im X Ss Sd Ms Md Le Nt Pa Hk Pd Ow De Va Gu Me Fe Fl Ov Ww Na.
  unfold tok_transfer_checked. rewrite Ds. rewrite unpack_tok_ok; [|rewrite Ss; discriminate|intro E; apply X; exact E]. cbn [bind].
  rewrite Ss. cbn [acct_state_eqb negb]. rewrite bind_guard_true by reflexivity.
  rewrite bind_guard_true by (apply N.leb_le; exact Le).
  assert (NT : has_acct_ext XtNonTransferableAccount s = false).
  { unfold has_acct_ext. apply not_true_is_false. intro E. apply existsb_exists in E. destruct E as (y & Iy & Ey). apply Nt.
    apply acct_ext_type_eqb_eq in Ey. first [rewrite Ey; apply in_map; exact Iy | rewrite <- Ey; apply in_map; exact Iy]. }
  rewrite NT. cbn [negb]. rewrite bind_guard_true by reflexivity. rewrite bind_guard_true by (apply pk_eqb_eq; exact Ms).
  rewrite Dm. rewrite unpack_mint_ok; [|exact Im|intro E; apply X; exact E]. cbn [bind].
  rewrite bind_guard_true by apply N.eqb_refl. rewrite Fe. cbn [bind]. rewrite Pa. cbn [negb]. rewrite !bind_guard_true by reflexivity.
  cbv zeta. assert (Es : pk_eqb src dst = false) by (apply pk_eqb_neq; exact Ne). rewrite Es.
  assert (A : authorize_debit p l ms cpi s m auth signers amount false = Ok s).
  { unfold authorize_debit.
    destruct (opk_eqb (ext_permanent_delegate m) (Some auth)) eqn:E1. { apply opk_eqb_eq in E1. contradiction. }
    rewrite De. cbn [opk_eqb]. rewrite Ow, Va. cbn [bind]. rewrite Gu. rewrite andb_false_r. reflexivity. }
  rewrite A. cbn [bind]. rewrite Os, Od, pk_eqb_refl. rewrite bind_guard_true by reflexivity.
  rewrite Dd. rewrite unpack_tok_ok; [|rewrite Sd; discriminate|intro E; apply X; exact E]. cbn [bind].
  rewrite Sd. cbn [acct_state_eqb negb]. rewrite bind_guard_true by reflexivity. rewrite bind_guard_true by (apply pk_eqb_eq; exact Md).
  rewrite bind_guard_true. 2:{ destruct (memo_required d); [rewrite Me by reflexivity; reflexivity|reflexivity]. }
  rewrite bind_guard_true by (apply N.leb_le; exact Fl). rewrite bind_guard_true by (unfold u64_ok; apply N.ltb_lt; exact Ov).
  assert (DX : exists dx, (if fee =? 0 then Ok (t_exts d) else of_option (add_withheld fee (t_exts d)) EInvalidAccountData) = Ok dx).
  { destruct (fee =? 0) eqn:E; [eexists; reflexivity|]. apply N.eqb_neq in E. destruct (Ww E) as [dx ->]. eexists; reflexivity. }
  destruct DX as [dx ->]. cbn [bind]. rewrite (set_data_ok _ _ _ _ _ Ws Os). cbn [bind].
  rewrite set_data_ok; [|exact Wd|rewrite upd_other by exact Ne; exact Od]. cbn [bind].
  unfold move_native. destruct (t_native s) as [rs|]; cbn [bind].
  2:{ apply Hk. intros k A1 A2. rewrite !upd_other by congruence. reflexivity. }
  unfold move_lamports. rewrite Ws, Wd. rewrite bind_guard_true by reflexivity.
  assert (Ne' : dst <> src) by congruence.
  rewrite bind_guard_true. 2:{ apply pk_eqb_eq. rewrite upd_other by exact Ne'. rewrite upd_same. exact Os. }
  rewrite bind_guard_true. 2:{ apply N.leb_le. rewrite upd_other by exact Ne'. rewrite upd_same. cbn. apply Na. discriminate. }
  cbn [bind]. apply Hk. intros k A1 A2. rewrite !upd_other by congruence. reflexivity.
Qed.

(** ** The holder acts: the owner's key has signed, or it is a multisig of the wrapped token's
    program and the given signers, all of which signed, include enough of its members. *)
Lemma owner_acts_validate p l accounts owner signers ms :
  owner_acts accounts l p owner signers ->
  (forall k, In k signers -> is_sig ms k = true) -> (signers = [] -> is_sig ms owner = true) ->
  validate_owner p l ms owner owner signers = Ok tt.
Proof.
  intros [(E & S & M)|(E & S & m & O & D & L)] H1 H2.
  - apply validate_owner_ok; [exact (H2 E)|]. exact M.
  - unfold validate_owner. rewrite pk_eqb_refl. rewrite bind_guard_true by reflexivity. rewrite D, O, pk_eqb_refl.
    rewrite bind_guard_true. 2:{ apply forallb_forall. intros k Hk. rewrite (H1 k Hk). apply orb_true_r. }
    unfold guard. unfold ms_count. apply N.leb_le in L. rewrite L. reflexivity.
Qed.

Lemma is_sig_map_signers pre signers k : In k signers -> is_sig (pre ++ map (fun k => meta_r k true) signers) k = true.
Proof.
  intro H. apply signed_is_sig. exists (meta_r k true). split; [|split; reflexivity]. apply in_or_app. right. apply (in_map (fun k => meta_r k true)). exact H.
Qed.
Lemma owner_acts_same accounts l l' p owner signers : l' owner = l owner -> owner_acts accounts l p owner signers -> owner_acts accounts l' p owner signers.
Proof. intro E. unfold owner_acts. rewrite E. auto. Qed.

Lemma unwrap_live e accounts more l n esc r a u wtp utp src w owner signers mu mw te tr ts fee :
  map i_key accounts = [esc; r; a; u; wtp; utp; src; w; owner] ++ more ->
  e_multisig e l owner (skipn 9 accounts) = Ok signers -> incl signers more ->
  (forall l1, (forall k, k <> src -> k <> w -> l1 k = l k) -> transfer_served e accounts l1 mu n esc u r a []) ->
  derivable e (wrapped_mint_seeds u wtp) tw_id -> derivable e (wrapped_mint_authority_seeds w) tw_id ->
  derivable e (ata_seeds a u utp) ata_id ->
  w = wrapped_mint_of e u wtp -> a = authority_of e w -> esc = escrow_of e u utp wtp ->
  token_program wtp -> token_program utp ->
  writable accounts esc -> writable accounts r -> writable accounts src -> writable accounts w ->
  0 < n -> n < two64 ->
  owner_acts accounts l wtp owner signers ->
  (* burn *)
  mint_account l w wtp mw -> token_account l src wtp ts -> (wtp = spl_token_id -> t_exts ts = [] /\ m_exts mw = []) ->
  t_state ts = Initialized -> t_native ts = None -> n <= t_amount ts -> t_mint ts = w ->
  ext_paused mw = false -> ext_conf_mint_burn mw = false -> ext_permanent_delegate mw = None -> t_owner ts = owner -> t_delegate ts <> Some owner ->
  cpi_guard_locked ts = false -> n <= m_supply mw ->
  (* transfer *)
  mint_account l u utp mu -> token_account l esc utp te -> token_account l r utp tr -> esc <> r ->
  (utp = spl_token_id -> t_exts te = [] /\ t_exts tr = [] /\ m_exts mu = []) ->
  t_state te = Initialized -> t_state tr = Initialized -> t_mint te = u -> t_mint tr = u -> n <= t_amount te ->
  ~ In XtNonTransferableAccount (map acct_ext_type_of (t_exts te)) ->
  ext_paused mu = false -> ext_permanent_delegate mu = None -> t_owner te = a -> t_delegate te = None ->
  (forall m, a_data (l a) <> DMultisig m) -> cpi_guard_locked te = false -> (memo_required tr = true -> e_memo e = true) ->
  transfer_fee_of e mu n = Ok fee -> fee <= n -> t_amount tr + (n - fee) < two64 ->
  (fee <> 0 -> exists dx, add_withheld fee (t_exts tr) = Some dx) ->
  (t_native te <> None -> n <= a_lamports (l esc)) ->
  exists l', succeeds e accounts (Unwrap n) l l'.
Proof.
  intros Hk Hms Hin Hex D1 D2 D3 Ew Ea Ee Tw Tu We Wr Ws Ww Pos Lt Own
    (Ow & Dw & Iw) (Os & Ds & Ss) Xb Sts Nts Les Mts Paw Cmw Pdw Owr Der Gus Sup
    (Ou & Du & Iu) (Oe & De & Se) (Or & Dr & Sr) Ner Xt Ste Str Mte Mtr Lee Nte Pau Pdu Oa Dea Msa Gue Mem Fee Fle Ov Wit Nat.
  unfold succeeds. rewrite outcome_instr by exact Lt. cbn [map_instr process_instr].
  unfold process_unwrap. assert (Z : (n =? 0) = false) by (apply N.eqb_neq; lia). rewrite Z. cbn [negb]. rewrite bind_guard_true by reflexivity.
  cbn [c_infos].
  destruct accounts as [|i0 [|i1 [|i2 [|i3 [|i4 [|i5 [|i6 [|i7 [|i8 add]]]]]]]]] eqn:Hc; try discriminate.
  rewrite <- Hc in *. assert (Hk' := Hk). rewrite Hc in Hk'. cbn [map app] in Hk'. injection Hk' as K0 K1 K2 K3 K4 K5 K6 K7 K8 Kr.
  assert (Hms' : e_multisig e l owner add = Ok signers). { rewrite Hc in Hms. cbn [skipn] in Hms. exact Hms. }
  clear Hms. rename Hms' into Hms.
  cbv zeta. cbn [map]. rewrite K0, K1, K2, K3, K4, K5, K6, K7, K8.
  unfold get_wrapped_mint_address, get_wrapped_mint_address_for_program, get_wrapped_mint_address_with_seed_for_program.
  rewrite (findable_get _ _ _ D1). cbn [bind fst].
  change (pda e (wrapped_mint_seeds u wtp) tw_id) with (wrapped_mint_of e u wtp).
  rewrite <- Ew. rewrite bind_guard_true by apply pk_eqb_refl.
  unfold get_wrapped_mint_authority_with_seed, get_wrapped_mint_authority_with_seed_for_program.
  pose proof (findable_get _ _ _ D2) as F2. rewrite F2. cbn [bind fst snd].
  change (pda e (wrapped_mint_authority_seeds w) tw_id) with (authority_of e w) in *. rewrite <- Ea in *.
  rewrite bind_guard_true by apply pk_eqb_refl.
  unfold get_associated_token_address. pose proof (findable_get _ _ _ D3) as F3. rewrite F3. cbn [bind fst].
  assert (E3 : pda e (ata_seeds a u utp) ata_id = esc).
  { rewrite Ee. unfold escrow_of, escrow_for. fold (wrapped_mint_of e u wtp). rewrite <- Ew. fold (authority_of e w). rewrite <- Ea. reflexivity. }
  rewrite E3. rewrite bind_guard_true by apply pk_eqb_refl.
  rewrite Hms. cbn [bind]. unfold ix_burn, check_spl_token_program_account.
  rewrite bind_guard_true by (apply token_program_eqb; exact Tw). cbn [bind].
  assert (Nsw : src <> w) by (intro X; rewrite X in Ds; congruence).
  assert (Nu_w : u <> w) by (rewrite Ew; apply unwrapped_neq_wrapped).
  assert (Nsu : src <> u) by (intro X; rewrite X in Ds; congruence).
  assert (New : esc <> w) by (intro X; rewrite X in De; congruence).
  assert (Nrw : r <> w) by (intro X; rewrite X in Dr; congruence).
  assert (Nes : esc <> src) by (intro X; rewrite X in De; congruence).
  assert (Nrs : r <> src) by (intro X; rewrite X in Dr; congruence).
  assert (Neu : esc <> u) by (intro X; rewrite X in De; congruence).
  assert (Nru : r <> u) by (intro X; rewrite X in Dr; congruence).
  apply writable_is_wr in We, Wr, Ws, Ww.
  set (mb := [meta_w src false; meta_w w false; meta_r owner (is_nil signers)] ++ map (fun k => meta_r k true) signers).
  assert (Inmb : forall m, In m mb -> m = meta_w src false \/ m = meta_w w false \/ m = meta_r owner (is_nil signers) \/
                   exists k, In k signers /\ m = meta_r k true).
  { intros m Hm. unfold mb in Hm. apply in_app_or in Hm. destruct Hm as [[<-|[<-|[<-|[]]]]|Hm]; auto.
    apply in_map_iff in Hm. destruct Hm as (k & <- & Hk2). right. right. right. exists k. auto. }
  unfold invoke at 1. rewrite (invoke_signed_eval _ _ _ _ _ _ _ []).
  2:{ cbn. intros m _ _ []. }
  2:{ reflexivity. }
  2:{ cbn. apply has_key_keys. rewrite Hk. cbn. tauto. }
  2:{ cbn [ix_metas c_infos]. intros m Hm. apply Inmb in Hm. split.
      - cbn [map]. rewrite Kr. destruct Hm as [->|[->|[->|(k & Hk2 & ->)]]]; cbn [meta_w meta_r i_key In];
          [left; reflexivity|right; left; reflexivity|right; right; left; reflexivity|right; right; right; apply Hin; exact Hk2].
      - apply has_key_keys. rewrite Hk. destruct Hm as [->|[->|[->|(k & Hk2 & ->)]]]; cbn [meta_w meta_r i_key]; try (cbn; tauto).
        apply in_or_app. right. apply Hin. exact Hk2. }
  2:{ cbn [ix_metas c_infos]. intros m Hm X. apply Inmb in Hm. destruct Hm as [->|[->|[->|(k & Hk2 & ->)]]]; cbn [i_key meta_w meta_r] in *; try discriminate; [exact Ws|exact Ww]. }
  2:{ cbn [ix_metas c_infos]. intros m Hm X. left. apply Inmb in Hm. apply signed_is_sig.
      destruct Hm as [E|[E|[E|(k & Hk2 & E)]]]; rewrite E in *; cbn [i_key i_signer meta_w meta_r] in *; try discriminate;
      destruct Own as [(E1 & S & _)|(E1 & S & _)].
      - exact S.
      - destruct signers; [contradiction|discriminate].
      - rewrite E1 in Hk2. destruct Hk2.
      - exact (S _ Hk2). }
  cbn [ix_prog ix_metas ix_body]. rewrite exec_program_tok by exact Tw.
  assert (TE : tok_exec e wtp true mb (TiBurn n) l = tok_burn wtp true mb src w owner signers n l).
  { unfold tok_exec, mb. cbn [map app i_key meta_w meta_r]. rewrite map_map. cbn [i_key meta_r]. rewrite map_id. reflexivity. }
  rewrite TE.
  destruct (burn_live wtp true mb src w owner signers n l ts mw) as (ts' & Mt' & ->); try assumption.
  { unfold is_wr, mb. cbn. rewrite pk_eqb_refl. reflexivity. }
  { unfold is_wr, mb. cbn. rewrite pk_eqb_refl. cbn. rewrite !orb_true_r. reflexivity. }
  { intro E. apply Xb; exact E. } { intro E. apply Xb; exact E. }
  { rewrite Pdw. discriminate. }
  { apply (owner_acts_validate wtp l accounts owner signers mb Own).
    - intros k Hk2. apply is_sig_map_signers. exact Hk2.
    - intros ->. unfold is_sig, mb. cbn. rewrite pk_eqb_refl. rewrite !orb_true_r. reflexivity. }
  cbn [bind]. set (l1 := upd (upd l src _) w _).
  assert (L1 : forall k, k <> src -> k <> w -> l1 k = l k).
  { intros k A B. unfold l1. rewrite upd_other by congruence. rewrite upd_other by congruence. reflexivity. }
  rewrite (L1 u) by congruence. rewrite Du. rewrite pod_unpack_mint_ok by exact Iu. cbn [bind].
  assert (Na_s : a_data (l1 a) = a_data (l a) \/ forall m, a_data (l1 a) <> DMultisig m).
  { destruct (pk_dec a src) as [->|A]. { right. intro m. unfold l1. rewrite upd_other by congruence. rewrite upd_same. cbn. discriminate. }
    left. rewrite (L1 a); [reflexivity|exact A|]. rewrite Ea. apply authority_neq_seed. }
  assert (Msa1 : forall m, a_data (l1 a) <> DMultisig m).
  { destruct Na_s as [E|E]; [rewrite E; exact Msa|exact E]. }
  assert (Tp : is_tw_pda a = true) by (rewrite Ea; apply is_tw_pda_authority).
  unfold invoke_transfer_checked, ix_transfer_checked, check_spl_token_program_account.
  assert (CK : (pk_eqb utp spl_token_id || pk_eqb utp t22_id)%bool = true) by (apply token_program_eqb; exact Tu).
  rewrite CK. cbn [guard bind]. cbn [c_infos].
  destruct (Hex l1 L1) as (x & Hks & Pre & Agr). assert (Hks' : e_extra e l1 accounts add = Ok x). { rewrite Hc in Hks at 2. cbn [skipn] in Hks. exact Hks. }
  rewrite Hks'. cbn [bind]. unfold transfer_metas.
  assert (AS : auth_is_signer l1 a = true).
  { unfold auth_is_signer. destruct (a_data (l1 a)) as [| | | |m|] eqn:E; try reflexivity. exfalso. exact (Msa1 m eq_refl). }
  rewrite AS. set (mt := [meta_w esc false; meta_r u false; meta_w r false; meta_r a true] ++ x).
  assert (Inmt : forall m, In m mt -> m = meta_w esc false \/ m = meta_r u false \/ m = meta_w r false \/ m = meta_r a true \/ In m x).
  { intros m Hm. unfold mt in Hm. apply in_app_or in Hm. destruct Hm as [[<-|[<-|[<-|[<-|[]]]]]|Hm]; auto. }
  rewrite (invoke_signed_eval _ _ _ _ _ _ _ [a]).
  2:{ cbn [ix_metas]. intros m Hm Wm [X|[]]. apply Inmt in Hm. destruct Hm as [E|[E|[E|[E|Hk2]]]];
      try (rewrite E in X, Wm; cbn [i_key i_writable meta_w meta_r] in X, Wm; try discriminate; congruence).
      destruct (Pre m Hk2) as (_ & P & _). destruct (P Wm) as [_ P2]. apply P2. symmetry. exact X. }
  2:{ cbn [map_res c_prog]. assert (CP : create_program_address e (wrapped_mint_authority_signer_seeds w (find_bump e (wrapped_mint_authority_seeds w) tw_id)) tw_id = Ok a).
      { apply find_pda_create in F2. exact F2. }
      rewrite CP. reflexivity. }
  2:{ cbn [ix_prog c_infos]. apply has_key_keys. rewrite Hk. cbn. tauto. }
  2:{ cbn [ix_metas c_infos]. intros m Hm. apply Inmt in Hm. destruct Hm as [->|[->|[->|[->|Hk2]]]]; cbn [i_key meta_w meta_r].
      1,2,3,4: split; [cbn; tauto|apply has_key_keys; rewrite Hk; cbn; tauto].
      split.
      - apply in_or_app. right. apply in_map. exact Hk2.
      - apply has_key_keys. exact (proj1 (Pre m Hk2)). }
  2:{ cbn [ix_metas c_infos]. intros m Hm X. apply Inmt in Hm. destruct Hm as [E|[E|[E|[E|Hk2]]]];
        try (rewrite E in *; cbn [i_key i_writable meta_w meta_r] in *; first [discriminate | exact We | exact Wr]).
      destruct (Pre m Hk2) as (_ & P & _). destruct (P X) as [P1 _]. apply writable_is_wr. exact P1. }
  2:{ cbn [ix_metas c_infos]. intros m Hm X. apply Inmt in Hm. destruct Hm as [E|[E|[E|[E|Hk2]]]];
        try (rewrite E in *; cbn [i_key i_signer meta_w meta_r] in *; discriminate).
      - rewrite E. right. left. reflexivity.
      - left. apply signed_is_sig. exact (proj2 (proj2 (Pre m Hk2)) X). }
  cbn [ix_prog ix_metas ix_body]. rewrite exec_program_tok by exact Tu.
  assert (TT : forall dec, tok_exec e utp true mt (TiTransferChecked n dec) l1 = tok_transfer_checked e utp true mt esc u r a (map i_key x) n dec None l1).
  { intro dec. unfold tok_exec, mt. cbn [map app i_key meta_w meta_r]. reflexivity. }
  rewrite TT.
  apply (transfer_live e utp true mt esc u r a (map i_key x) n l1 te mu tr fee); try assumption.
  - unfold is_wr, mt. cbn. rewrite pk_eqb_refl. reflexivity.
  - unfold is_wr, mt. cbn. rewrite pk_eqb_refl. cbn. rewrite !orb_true_r. reflexivity.
  - rewrite (L1 esc) by assumption. exact Oe.
  - rewrite (L1 esc) by assumption. exact De.
  - rewrite (L1 r) by assumption. exact Or.
  - rewrite (L1 r) by assumption. exact Dr.
  - rewrite (L1 u) by congruence. exact Du.
  - intros l3 F3'. destruct (hook_agrees_run e mu n l1 esc u r a x [] [meta_w esc false; meta_r u false; meta_w r false; meta_r a true] l3 Agr) as (l4 & R4 & _); [reflexivity|exact F3'|]. exists l4. exact R4.
  - rewrite Pdu. discriminate.
  - apply validate_owner_ok. { unfold is_sig, mt. cbn. rewrite pk_eqb_refl. rewrite !orb_true_r. reflexivity. }
    intros m Hm. exfalso. exact (Msa1 m Hm).
  - rewrite (L1 esc) by assumption. exact Nat.
Qed.

(** ** In a reachable state everything about the wrapped side and the size of the escrow follows. *)
Lemma find_map_none {A B} (f : A -> option B) l : (forall x, In x l -> f x = None) -> find_map f l = None.
Proof. induction l as [|x r IH]; intro H; [reflexivity|]. cbn. rewrite (H x) by (left; reflexivity). apply IH. intros y Hy. apply H. right. exact Hy. Qed.
Lemma wrapped_exts_plain p w a m : wrapped_exts p w a (m_exts m) ->
  ext_paused m = false /\ ext_conf_mint_burn m = false /\ ext_permanent_delegate m = None.
Proof.
  intro H. apply wrapped_exts_facts in H. destruct H as (_ & _ & F). split; [|split].
  - unfold ext_paused. rewrite find_map_none; [reflexivity|]. intros x Hx. specialize (F x Hx). destruct x; tauto.
  - unfold ext_conf_mint_burn. apply not_true_is_false. intro E. apply existsb_exists in E. destruct E as (x & Hx & Ex). specialize (F x Hx). destruct x; try discriminate; tauto.
  - unfold ext_permanent_delegate. rewrite find_map_none; [reflexivity|]. intros x Hx. specialize (F x Hx). destruct x; tauto.
Qed.
Lemma spl_extless e0 l k m : Inv e0 l -> a_owner (l k) = spl_token_id -> a_data (l k) = DMint m -> m_exts m = [].
Proof. intros I O D. assert (T : token_program (a_owner (l k))) by (rewrite O; left; reflexivity). destruct (inv_mint _ _ _ _ I T D) as (_ & _ & _ & A & _). exact (A O). Qed.
Lemma spl_extless_tok e0 l k t : Inv e0 l -> a_owner (l k) = spl_token_id -> a_data (l k) = DTok t -> t_exts t = [].
Proof. intros I O D. assert (T : token_program (a_owner (l k))) by (rewrite O; left; reflexivity). destruct (inv_tok _ _ _ _ I T D) as (_ & A & _). exact (A O). Qed.
Lemma two_balances e0 l utp u esc r te tr : Inv e0 l -> token_program utp -> is_native_mint utp u = false -> esc <> r ->
  a_owner (l esc) = utp -> a_data (l esc) = DTok te -> t_mint te = u -> a_owner (l r) = utp -> a_data (l r) = DTok tr -> t_mint tr = u ->
  tok_val te + tok_val tr < two64.
Proof.
  intros I T N Ne Oe De Me Or Dr Mr. pose proof (inv_cons _ _ I utp u T N [esc; r]) as K.
  assert (ND : NoDup [esc; r]) by (repeat constructor; [intros [X|[]]; congruence|intros []]). specialize (K ND).
  cbn [sumf fold_right] in K. unfold val in K. rewrite Oe, Or, !pk_eqb_refl, De, Dr in K. cbn [data_val] in K. rewrite Me, Mr, !pk_eqb_refl in K.
  unfold room in K. destruct (pk_eqb (a_owner (l u)) utp) eqn:E; [|unfold two64; lia]. apply pk_eqb_eq in E.
  unfold data_cap in K. destruct (a_data (l u)) as [ | |m| | |] eqn:D; try (unfold two64; lia). rewrite pk_eqb_refl in K.
  assert (T' : token_program (a_owner (l u))) by (rewrite E; exact T). destruct (inv_mint _ _ _ _ I T' D) as (_ & B & _). lia.
Qed.

Lemma find_map_some {A B} (f : A -> option B) l y : find_map f l = Some y -> exists x, In x l /\ f x = Some y.
Proof. induction l as [|x r IH]; cbn; [discriminate|]. destruct (f x) eqn:E; [intro X; exists x; split; [left; reflexivity|congruence]|]. intro X. destruct (IH X) as (z & Z1 & Z2). exists z. auto. Qed.
Lemma fees_sane e0 l u m : Inv e0 l -> token_program (a_owner (l u)) -> a_data (l u) = DMint m ->
  forall c, ext_fee m = Some c -> tf_bps (fc_older c) <= 10000 /\ tf_bps (fc_newer c) <= 10000.
Proof.
  intros I T D c F. destruct (inv_mint _ _ _ _ I T D) as (_ & _ & _ & _ & _ & W). unfold ext_fee in F. apply find_map_some in F. destruct F as (x & Hx & Ex).
  unfold exts_wf in W. rewrite Forall_forall in W. specialize (W x Hx). destruct x; try discriminate. injection Ex as ->. cbn in W.
  apply andb_true_iff in W. destruct W as [W1 W2]. apply N.leb_le in W1, W2. auto.
Qed.

Lemma redeem_aux e0 e past l u utp wtp accounts more signers n recipient source owner mu ts tr te w a esc :
  history e0 past l -> ever (no_permanent_delegate u) past l -> same_curve e0 e ->
  spl_or_t22 wtp -> spl_or_t22 utp ->
  w = wrapped_mint_of e u wtp -> a = authority_of e w -> esc = escrow_of e u utp wtp ->
  derivable e (wrapped_mint_seeds u wtp) tw_id -> derivable e (wrapped_mint_authority_seeds w) tw_id -> derivable e (ata_seeds a u utp) ata_id ->
  map i_key accounts = [esc; recipient; a; u; wtp; utp; source; w; owner] ++ more ->
  e_multisig e l owner (skipn 9 accounts) = Ok signers -> incl signers more -> (forall l1, (forall k, k <> source -> k <> w -> l1 k = l k) -> transfer_served e accounts l1 mu n esc u recipient a []) ->
  writable accounts esc -> writable accounts recipient -> writable accounts source -> writable accounts w ->
  owner_acts accounts l wtp owner signers ->
  token_account l source wtp ts -> t_mint ts = w -> t_owner ts = owner -> t_state ts = Initialized -> t_delegate ts <> Some owner -> cpi_guard_locked ts = false ->
  0 < n -> n <= t_amount ts ->
  mint_account l u utp mu -> ext_paused mu = false ->
  token_account l recipient utp tr -> t_mint tr = u -> t_state tr = Initialized -> recipient <> esc -> (memo_required tr = true -> e_memo e = true) ->
  (ext_fee mu <> None -> In XtTransferFeeAmount (map acct_ext_type_of (t_exts tr))) ->
  token_account l esc utp te -> t_state te = Initialized -> cpi_guard_locked te = false -> ~ In XtNonTransferableAccount (map acct_ext_type_of (t_exts te)) ->
  (is_native_mint utp u = true -> balance l recipient + n < two64 /\ n <= lamports l esc) ->
  exists l', succeeds e accounts (Unwrap n) l l'.
Proof.
  intros H NP C Tw Tu Ew Ea Ee D1 D2 D3 Hk Hms Hin Hex We Wr Ws Ww Own Hs Ms Os Sts Des Gus Pos Le Hu Pau Hr Mr Str Ner Mem Wit He Ste Gue Nte Nat.
  assert (I : Inv e l). { apply (Inv_curve e0 e l C). exact (history_inv _ _ _ H). }
  assert (Nw : is_native_mint wtp w = false).
  { unfold is_native_mint. apply pk_eqb_neq. intro X. assert (P : is_tw_pda w = true) by (rewrite Ew; apply is_tw_pda_wrapped). rewrite X in P. destruct (pk_eqb wtp spl_token_id); discriminate. }
  destruct Hs as (Oso & Dso & Sso). destruct Hu as (Ou & Du & Iu). destruct Hr as (Or & Dr & Sr). destruct He as (Oe & De & Se).
  assert (Bps : forall c, ext_fee mu = Some c -> tf_bps (fc_older c) <= 10000 /\ tf_bps (fc_newer c) <= 10000).
  { apply (fees_sane e l u mu I); [rewrite Ou; exact Tu|exact Du]. }
  destruct (held_mint e l wtp source ts I Tw Oso Dso) as [X|(mw & Ow & Dw & Su)]; [lia|rewrite Ms in X; clear -X Nw; congruence|]. rewrite Ms in Ow, Dw.
  destruct (inv_wrapped e l u wtp I) as [B|[_ (_ & mw' & Dw' & Iw & _ & Xw)]].
  { exfalso. rewrite <- Ew in B. destruct B as [B _]. rewrite B in Dw. discriminate. }
  rewrite <- Ew in Dw', Xw. assert (mw' = mw) by (clear -Dw Dw'; congruence). subst mw'.
  destruct (wrapped_exts_plain _ _ _ _ Xw) as (Paw & Cmw & Pdw).
  assert (Tww : token_program (a_owner (l w))) by (rewrite Ow; exact Tw).
  destruct (inv_mint _ _ _ _ I Tww Dw) as (_ & Sb & _).
  assert (Lt : n < two64) by lia.
  destruct (backed_l e0 past l u utp wtp H Tw Tu Ou NP) as [Bk _].
  rewrite (wrapped_mint_of_curve e0 e u wtp C) in Bk. rewrite (escrowed_curve e0 e l u utp wtp C) in Bk. rewrite <- Ew in Bk.
  assert (Sw : supply l w = m_supply mw) by (unfold supply; rewrite Dw; reflexivity). rewrite Sw in Bk.
  destruct (escrowed_inv e l u utp wtp) as (te' & De' & _ & Mte & Ote & Et); [lia|].
  rewrite <- Ee in De'. assert (te' = te) by (clear -De De'; congruence). subst te'. rewrite <- Ew in Ote. rewrite <- Ea in Ote.
  assert (Pda : is_tw_pda a = true) by (rewrite Ea; apply is_tw_pda_authority).
  assert (Tt : token_program (a_owner (l esc))) by (rewrite Oe; exact Tu).
  destruct (inv_tok _ _ _ _ I Tt De) as (_ & _ & _ & Ad). rewrite Ote in Ad. destruct (Ad Pda) as [Dte _]. 
  assert (Ts' : token_program (a_owner (l source))) by (rewrite Oso; exact Tw).
  assert (Nts : t_native ts = None).
  { destruct (inv_tok _ _ _ _ I Ts' Dso) as (_ & _ & A & _). rewrite Oso, Ms, Nw in A. destruct (t_native ts); [|reflexivity]. destruct A as [A _]. discriminate A. discriminate. }
  assert (Npd : ext_permanent_delegate mu = None).
  { destruct Tu as [E|E]. { unfold ext_permanent_delegate. rewrite (spl_extless e l u mu I); [reflexivity|congruence|exact Du]. }
    apply (NP l); [left; reflexivity|]. split; [congruence|]. split; assumption. }
  destruct (transfer_fee_live e mu n Bps Lt) as (fee & Fe & Fl & F0).
  assert (Ov : t_amount tr + (n - fee) < two64 /\ (fee <> 0 -> exists dx, add_withheld fee (t_exts tr) = Some dx) /\ (t_native te <> None -> n <= a_lamports (l esc))).
  { destruct (is_native_mint utp u) eqn:N.
    - destruct (Nat eq_refl) as [A1 A2]. unfold balance in A1. rewrite Dr in A1. split; [lia|]. split; [|intros _; exact A2].
      intro F. exfalso. apply F. apply F0.
      assert (mu = wrapped_sol_mint). { unfold is_native_mint in N. apply pk_eqb_eq in N. destruct Tu as [E|E]; rewrite E in *; cbn [pk_eqb spl_token_id t22_id N.eqb Pos.eqb] in N.
        - destruct (inv_sol _ _ I) as [_ S]. rewrite N in Du. clear -S Du. congruence.
        - destruct (inv_acct _ _ I u) as (_ & _ & A). specialize (A N Ou). clear -A Du. congruence. }
      subst mu. reflexivity.
    - assert (TB : tok_val te + tok_val tr < two64) by (apply (two_balances e l utp u esc recipient te tr I Tu N); [congruence|assumption..]).
      unfold tok_val in TB. split; [lia|]. split.
      + intro F. apply add_withheld_live; [|lia]. apply Wit. intro X. apply F. exact (F0 X).
      + intro X. exfalso. destruct (inv_tok _ _ _ _ I Tt De) as (_ & _ & [A _] & _). specialize (A X). rewrite Oe, Mte in A. congruence. }
  destruct Ov as (Ov1 & Ov2 & Ov3).
  apply (unwrap_live e accounts more l n esc recipient a u wtp utp source w owner signers mu mw te tr ts fee); try assumption; try reflexivity.
  - split; [exact Ow|]. split; assumption.
  - split; [exact Oso|]. split; assumption.
  - intro E. split; [apply (spl_extless_tok e l source ts I); congruence|apply (spl_extless e l w mw I); [rewrite <- E; exact Ow|exact Dw]].
  - lia.
  - split; [exact Ou|]. split; assumption.
  - split; [exact Oe|]. split; assumption.
  - split; [exact Or|]. split; assumption.
  - apply not_eq_sym. exact Ner.
  - intro E. split; [apply (spl_extless_tok e l esc te I); congruence|]. split; [apply (spl_extless_tok e l recipient tr I); congruence|].
    apply (spl_extless e l u mu I); congruence.
  - lia.
  - intro m. exact (pda_not_multisig e l a m I Pda).
Qed.
Lemma native_mint_b p u : is_native_mint p u = true -> native_mint u.
Proof. intro N. unfold is_native_mint in N. apply pk_eqb_eq in N. destruct (pk_eqb p spl_token_id); [left|right]; exact N. Qed.
Lemma redeem_aux2_h e0 e past l u utp wtp accounts more signers n recipient source owner mu ts tr w a esc :
  history e0 past l -> ever (no_permanent_delegate u) past l -> same_curve e0 e ->
  spl_or_t22 wtp -> spl_or_t22 utp ->
  w = wrapped_mint_of e u wtp -> a = authority_of e w -> esc = escrow_of e u utp wtp ->
  derivable e (wrapped_mint_seeds u wtp) tw_id -> derivable e (wrapped_mint_authority_seeds w) tw_id -> derivable e (ata_seeds a u utp) ata_id ->
  map i_key accounts = [esc; recipient; a; u; wtp; utp; source; w; owner] ++ more ->
  e_multisig e l owner (skipn 9 accounts) = Ok signers -> incl signers more -> (forall l1, (forall k, k <> source -> k <> w -> l1 k = l k) -> transfer_served e accounts l1 mu n esc u recipient a []) ->
  writable accounts esc -> writable accounts recipient -> writable accounts source -> writable accounts w ->
  owner_acts accounts l wtp owner signers ->
  holder l wtp w source owner ts -> 0 < n -> n <= t_amount ts ->
  unpaused l utp u mu -> can_receive e l utp u recipient mu tr -> recipient <> esc -> open_account l esc ->
  (native_mint u -> lamports l recipient + lamports l esc < two64) ->
  exists l', succeeds e accounts (Unwrap n) l l'.
Proof.
  intros H NP C Tw Tu Ew Ea Ee D1 D2 D3 Hk Hms Hin Hex We Wr Ws Ww Own (H1 & H2 & H3 & H4 & H5 & H6) Pos Le (M1 & M2) (R1 & R2 & R3 & R4 & R5) Ne Op Nat.
  assert (R : reachable e0 l) by (exists past; exact H).
  assert (Cov : n <= escrowed e0 l u utp wtp).
  { destruct (backed_l e0 past l u utp wtp H Tw Tu (proj1 M1) NP) as [Bk _].
    pose proof (history_inv _ _ _ H) as I. destruct H1 as (Oso & Dso & _).
    assert (Nw : is_native_mint wtp w = false).
    { unfold is_native_mint. apply pk_eqb_neq. intro X. assert (P : is_tw_pda w = true) by (rewrite Ew; apply is_tw_pda_wrapped). rewrite X in P. destruct (pk_eqb wtp spl_token_id); discriminate. }
    destruct (held_mint e0 l wtp source ts I Tw Oso Dso) as [X|(mw & Ow & Dw & Su)]; [lia|rewrite H2 in X; clear -X Nw; congruence|]. rewrite H2 in Dw.
    rewrite (wrapped_mint_of_curve e0 e u wtp C) in Bk. rewrite <- Ew in Bk. unfold supply in Bk. rewrite Dw in Bk. lia. }
  pose proof (escrowed_balance e0 l u utp wtp) as EB. rewrite (escrow_of_curve e0 e u utp wtp C) in EB. rewrite <- Ee in EB.
  unfold balance in EB. destruct (a_data (l esc)) as [| | |te| |] eqn:De; try lia.
  pose proof (esc_settled e0 e l u utp wtp R Tu) as Se. rewrite <- Ee in Se. destruct (settled_tok _ _ _ _ _ Se De) as [Oe G].
  destruct (Op te De) as [Ste Nte].
  assert (He : token_account l esc utp te). { split; [exact Oe|]. split; [exact De|]. rewrite Ste. discriminate. }
  apply (redeem_aux e0 e past l u utp wtp accounts more signers n recipient source owner mu ts tr te w a esc); try assumption.
  - exact (genuine_no_guard _ _ _ _ G).
  - intro N. specialize (Nat (native_mint_b _ _ N)). unfold lamports in Nat. pose proof G as (Mte & _).
    destruct R1 as (Or & Dr & _). assert (A1 : t_amount tr <= a_lamports (l recipient)) by (apply (sol_amount e0 l utp recipient tr R Tu Or Dr); rewrite R2; exact N).
    assert (A2 : t_amount te <= a_lamports (l esc)) by (apply (sol_amount e0 l utp esc te R Tu Oe De); rewrite Mte; exact N).
    unfold balance, lamports. rewrite Dr. lia.
Qed.
Lemma redeem_aux2 e0 e past l u utp wtp accounts more signers n recipient source owner mu ts tr w a esc :
  history e0 past l -> ever (no_permanent_delegate u) past l -> same_curve e0 e ->
  spl_or_t22 wtp -> spl_or_t22 utp ->
  w = wrapped_mint_of e u wtp -> a = authority_of e w -> esc = escrow_of e u utp wtp ->
  derivable e (wrapped_mint_seeds u wtp) tw_id -> derivable e (wrapped_mint_authority_seeds w) tw_id -> derivable e (ata_seeds a u utp) ata_id ->
  map i_key accounts = [esc; recipient; a; u; wtp; utp; source; w; owner] ++ more ->
  e_multisig e l owner (skipn 9 accounts) = Ok signers -> incl signers more -> appends_signers e accounts ->
  writable accounts esc -> writable accounts recipient -> writable accounts source -> writable accounts w ->
  owner_acts accounts l wtp owner signers ->
  holder l wtp w source owner ts -> 0 < n -> n <= t_amount ts ->
  transferable l utp u mu -> can_receive e l utp u recipient mu tr -> recipient <> esc -> open_account l esc ->
  (native_mint u -> lamports l recipient + lamports l esc < two64) ->
  exists l', succeeds e accounts (Unwrap n) l l'.
Proof.
  intros H NP C Tw Tu Ew Ea Ee D1 D2 D3 Hk Hms Hin Hex We Wr Ws Ww Own Ho Pos Le (M1 & M2 & M3) Ca Ne Op Nat.
  apply (redeem_aux2_h e0 e past l u utp wtp accounts more signers n recipient source owner mu ts tr w a esc); try assumption.
  - intros l1 _. apply appends_served; assumption.
  - split; assumption.
Qed.
Lemma redeem_l e0 e past l u utp wtp accounts more signers n recipient source owner mu ts tr :
  history e0 past l -> ever (no_permanent_delegate u) past l -> same_curve e0 e ->
  spl_or_t22 wtp -> spl_or_t22 utp ->
  let w := wrapped_mint_of e u wtp in let a := authority_of e w in let esc := escrow_of e u utp wtp in
  derivable e (wrapped_mint_seeds u wtp) tw_id -> derivable e (wrapped_mint_authority_seeds w) tw_id -> derivable e (ata_seeds a u utp) ata_id ->
  map i_key accounts = [esc; recipient; a; u; wtp; utp; source; w; owner] ++ more ->
  e_multisig e l owner (skipn 9 accounts) = Ok signers -> incl signers more -> appends_signers e accounts ->
  writable accounts esc -> writable accounts recipient -> writable accounts source -> writable accounts w ->
  owner_acts accounts l wtp owner signers ->
  holder l wtp w source owner ts -> 0 < n -> n <= t_amount ts ->
  transferable l utp u mu -> can_receive e l utp u recipient mu tr -> recipient <> esc -> open_account l esc ->
  (native_mint u -> lamports l recipient + lamports l esc < two64) ->
  exists l', succeeds e accounts (Unwrap n) l l'.
Proof. intros H NP C Tw Tu w a esc. exact (redeem_aux2 e0 e past l u utp wtp accounts more signers n recipient source owner mu ts tr w a esc H NP C Tw Tu eq_refl eq_refl eq_refl). Qed.

(** ** All holders together *)
Lemma holds_val l p w k : holds l p w k <= val p w l k.
Proof.
  unfold holds, val. destruct (a_data (l k)) as [| | |t| |]; try lia. destruct (pk_eqb (a_owner (l k)) p); [|cbn; lia]. cbn [andb data_val].
  destruct (pk_eqb (t_mint t) w); [|lia]. unfold tok_val. lia.
Qed.
Lemma hold_together_val l p w ks : hold_together l p w ks <= sumf (val p w l) ks.
Proof. induction ks as [|k r IH]; cbn; [lia|]. pose proof (holds_val l p w k). unfold hold_together, sumf in IH. lia. Qed.
Lemma covered_l e0 past l u utp wtp ks :
  history e0 past l -> ever (no_permanent_delegate u) past l -> spl_or_t22 wtp -> spl_or_t22 utp -> a_owner (l u) = utp -> NoDup ks ->
  hold_together l wtp (wrapped_mint_of e0 u wtp) ks <= escrowed e0 l u utp wtp.
Proof.
  intros H NP Tw Tu Ou ND. destruct (backed_l e0 past l u utp wtp H Tw Tu Ou NP) as [B _].
  pose proof (history_inv _ _ _ H) as I.
  assert (Nw : is_native_mint wtp (wrapped_mint_of e0 u wtp) = false).
  { unfold is_native_mint. apply pk_eqb_neq. intro X. pose proof (is_tw_pda_wrapped e0 u wtp) as P. rewrite X in P. destruct (pk_eqb wtp spl_token_id); discriminate. }
  pose proof (inv_cons _ _ I wtp _ Tw Nw ks ND) as K. pose proof (hold_together_val l wtp (wrapped_mint_of e0 u wtp) ks) as V.
  assert (R : room wtp (wrapped_mint_of e0 u wtp) l (wrapped_mint_of e0 u wtp) <= supply l (wrapped_mint_of e0 u wtp)).
  { unfold room, supply. generalize (wrapped_mint_of e0 u wtp). intro w. destruct (pk_eqb (a_owner (l w)) wtp); [|lia].
    unfold data_cap. destruct (a_data (l w)); try lia. rewrite pk_eqb_refl. lia. }
  lia.
Qed.
