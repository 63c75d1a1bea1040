(** * WrapLive.v — lemmas: when Wrap succeeds. *)
From Verif Require Import Base Codec State Pda TokenProg Cpi Meta Processor Tac CodecProofs PdaProofs TokProofs FrameProofs ProcProofs
  Spec SpecLemmas CreateProofs CreateSpec WrapProofs CloseProofs InvTok InvCons HistorySpec HookSpec InvState InvTw InvHist EscProofs SolProofs HistProofs EscLive UnwrapLive.

(** ** Transfers authorised by the owner, checked or with the fee stated, with a hook that agrees *)
Lemma transfer_live2 e p cpi ms src mnt dst auth signers amount l s m d fee xf (keep : pubkey -> Prop) :
  token_program p -> is_wr ms src = true -> is_wr ms dst = true -> src <> dst ->
  a_owner (l src) = p -> a_data (l src) = DTok s -> a_owner (l dst) = p -> a_data (l dst) = DTok d ->
  a_data (l mnt) = DMint m -> m_init m = true ->
  (p = spl_token_id -> t_exts s = [] /\ t_exts d = [] /\ m_exts m = []) ->
  t_state s = Initialized -> t_state d = Initialized -> t_mint s = mnt -> t_mint d = mnt ->
  amount <= t_amount s -> ~ In XtNonTransferableAccount (map acct_ext_type_of (t_exts s)) ->
  ext_paused m = false ->
  (forall l3, (forall k, k <> src -> k <> dst -> l3 k = l k) -> exists l4, run_hook e m ms amount l3 = Ok l4 /\ forall k, keep k -> l4 k = l3 k) ->
  t_owner s = auth -> t_delegate s <> Some auth -> validate_owner p l ms auth auth signers = Ok tt -> cpi_guard_locked s = false ->
  (memo_required d = true -> e_memo e = true) ->
  transfer_fee_of e m amount = Ok fee -> (xf = None \/ xf = Some fee) -> fee <= amount -> t_amount d + (amount - fee) < two64 ->
  (fee <> 0 -> exists dx, add_withheld fee (t_exts d) = Some dx) ->
  (t_native s <> None -> amount <= a_lamports (l src)) ->
  exists l', tok_transfer_checked e p cpi ms src mnt dst auth signers amount (m_decimals m) xf l = Ok l' /\
    forall k, keep k -> k <> src -> k <> dst -> l' k = l k.
Proof.
  intros T Ws Wd Ne Os Ds Od Dd Dm Im X Ss Sd Ms Md Le Nt Pa Hk Ow De Va Gu Me Fe Xf Fl Ov Ww Na.
  unfold tok_transfer_checked. rewrite Ds. rewrite unpack_tok_ok; [|rewrite Ss; discriminate|intro E; apply X; exact E]. cbn [bind].
  rewrite Ss. cbn [acct_state_eqb negb]. rewrite bind_guard_true by reflexivity.
  rewrite bind_guard_true by (apply N.leb_le; exact Le).
  assert (NT : has_acct_ext XtNonTransferableAccount s = false).
  { unfold has_acct_ext. apply not_true_is_false. intro E. apply existsb_exists in E. destruct E as (y & Iy & Ey). apply Nt.
    apply acct_ext_type_eqb_eq in Ey. first [rewrite Ey; apply in_map; exact Iy | rewrite <- Ey; apply in_map; exact Iy]. }
  rewrite NT. cbn [negb]. rewrite bind_guard_true by reflexivity. rewrite bind_guard_true by (apply pk_eqb_eq; exact Ms).
  rewrite Dm. rewrite unpack_mint_ok; [|exact Im|intro E; apply X; exact E]. cbn [bind].
  rewrite bind_guard_true by apply N.eqb_refl. rewrite Fe. cbn [bind]. rewrite Pa. cbn [negb]. rewrite bind_guard_true by reflexivity.
  rewrite bind_guard_true. 2:{ destruct Xf as [-> | ->]; [reflexivity|apply N.eqb_refl]. }
  cbv zeta. assert (Es : pk_eqb src dst = false) by (apply pk_eqb_neq; exact Ne). rewrite Es.
  assert (A : authorize_debit p l ms cpi s m auth signers amount false = Ok s).
  { unfold authorize_debit.
    destruct (opk_eqb (ext_permanent_delegate m) (Some auth)) eqn:E1. { rewrite Va. reflexivity. }
    destruct (opk_eqb (t_delegate s) (Some auth)) eqn:E2. { apply opk_eqb_eq in E2. contradiction. }
    rewrite Ow, Va. cbn [bind]. rewrite Gu. rewrite andb_false_r. reflexivity. }
  rewrite A. cbn [bind]. rewrite Os, Od, pk_eqb_refl. rewrite bind_guard_true by reflexivity.
  rewrite Dd. rewrite unpack_tok_ok; [|rewrite Sd; discriminate|intro E; apply X; exact E]. cbn [bind].
  rewrite Sd. cbn [acct_state_eqb negb]. rewrite bind_guard_true by reflexivity. rewrite bind_guard_true by (apply pk_eqb_eq; exact Md).
  rewrite bind_guard_true. 2:{ destruct (memo_required d); [rewrite Me by reflexivity; reflexivity|reflexivity]. }
  rewrite bind_guard_true by (apply N.leb_le; exact Fl). rewrite bind_guard_true by (unfold u64_ok; apply N.ltb_lt; exact Ov).
  assert (DX : exists dx, (if fee =? 0 then Ok (t_exts d) else of_option (add_withheld fee (t_exts d)) EInvalidAccountData) = Ok dx).
  { destruct (fee =? 0) eqn:E; [eexists; reflexivity|]. apply N.eqb_neq in E. destruct (Ww E) as [dx ->]. eexists; reflexivity. }
  destruct DX as [dx ->]. cbn [bind]. rewrite (set_data_ok _ _ _ _ _ Ws Os). cbn [bind].
  rewrite set_data_ok; [|exact Wd|rewrite upd_other by exact Ne; exact Od]. cbn [bind].
  assert (FIN : forall l3, (forall k, k <> src -> k <> dst -> l3 k = l k) ->
    exists l', run_hook e m ms amount l3 = Ok l' /\ forall k, keep k -> k <> src -> k <> dst -> l' k = l k).
  { intros l3 F3. destruct (Hk l3 F3) as (l4 & R4 & K4). exists l4. split; [exact R4|]. intros k A1 A2 A3. rewrite (K4 k A1). exact (F3 k A2 A3). }
  unfold move_native. destruct (t_native s) as [rs|]; cbn [bind].
  2:{ apply FIN. intros k A1 A2. rewrite !upd_other by congruence. reflexivity. }
  unfold move_lamports. rewrite Ws, Wd. rewrite bind_guard_true by reflexivity.
  assert (Ne' : dst <> src) by congruence.
  rewrite bind_guard_true. 2:{ apply pk_eqb_eq. rewrite upd_other by exact Ne'. rewrite upd_same. exact Os. }
  rewrite bind_guard_true. 2:{ apply N.leb_le. rewrite upd_other by exact Ne'. rewrite upd_same. cbn. apply Na. discriminate. }
  cbn [bind]. apply FIN. intros k A1 A2. rewrite !upd_other by congruence. reflexivity.
Qed.

(** ** A multisig's members among the accounts added to a transfer *)
Lemma pk_mem_In k ks : pk_mem k ks = true <-> In k ks.
Proof.
  unfold pk_mem. rewrite existsb_exists. split.
  - intros (x & Hx & E). apply pk_eqb_eq in E. first [rewrite E; exact Hx | rewrite <- E; exact Hx].
  - intro H. exists k. split; [exact H|apply pk_eqb_refl].
Qed.
Lemma filter_length_le {A} (f g : A -> bool) l : (forall x, f x = true -> g x = true) -> (length (filter f l) <= length (filter g l))%nat.
Proof.
  intro H. induction l as [|x r IH]; cbn; [lia|]. destruct (f x) eqn:E; [rewrite (H x E); cbn; lia|]. destruct (g x); cbn; lia.
Qed.
Lemma owner_acts_extra p l accounts owner signers x pre :
  owner_acts accounts l p owner signers -> members_presented l owner signers x ->
  (signers = [] -> is_sig (pre ++ x) owner = true) ->
  validate_owner p l (pre ++ x) owner owner (map i_key x) = Ok tt.
Proof.
  intros Own [M1 M2] H2. destruct Own as [(E & S & M)|(E & S & m & O & D & L)].
  - apply validate_owner_ok; [exact (H2 E)|]. exact M.
  - unfold validate_owner. rewrite pk_eqb_refl. rewrite bind_guard_true by reflexivity. rewrite D, O, pk_eqb_refl.
    rewrite bind_guard_true.
    2:{ apply forallb_forall. intros k Hk. destruct (pk_mem k (ms_signers m)) eqn:Q; [|reflexivity]. cbn [negb orb].
        apply pk_mem_In in Q. apply in_map_iff in Hk. destruct Hk as (i & <- & Hi).
        destruct (M1 _ (M2 m i D Hi Q)) as (j & J1 & J2 & J3). apply signed_is_sig. exists j. split; [apply in_or_app; right; exact J1|]. split; assumption. }
    unfold guard. unfold ms_count.
    assert (Le : ms_m m <= N.of_nat (length (filter (fun k => pk_mem k (map i_key x)) (ms_signers m)))).
    { pose proof (filter_length_le (fun k => pk_mem k signers) (fun k => pk_mem k (map i_key x)) (ms_signers m)) as F.
      assert (Q : forall k, pk_mem k signers = true -> pk_mem k (map i_key x) = true).
      { intros k Q. apply pk_mem_In in Q. apply pk_mem_In. destruct (M1 k Q) as (j & J1 & J2 & _). rewrite <- J2. apply in_map. exact J1. }
      specialize (F Q). lia. }
    apply N.leb_le in Le. rewrite Le. reflexivity.
Qed.
Lemma plain_members l owner signers : members_presented l owner signers (map (fun k => meta_r k true) signers).
Proof.
  split.
  - intros k Hk. exists (meta_r k true). split; [apply (in_map (fun k => meta_r k true)); exact Hk|]. split; reflexivity.
  - intros m i _ Hi _. apply in_map_iff in Hi. destruct Hi as (k & <- & Hk). exact Hk.
Qed.
Lemma plain_presented accounts l up owner u signers : owner_acts accounts l up owner signers -> presented accounts u (map (fun k => meta_r k true) signers).
Proof.
  intros Own i Hi. apply in_map_iff in Hi. destruct Hi as (k & <- & Hk). cbn [i_key i_writable i_signer meta_r].
  assert (S : signed accounts k). { destruct Own as [(E & _)|(_ & S & _)]; [rewrite E in Hk; destruct Hk|exact (S k Hk)]. }
  destruct S as (j & J1 & J2 & J3). split; [rewrite <- J2; apply in_map; exact J1|]. split; [intro X; discriminate X|]. intros _. exists j. auto.
Qed.

(** ** MintTo *)
Lemma mint_to_live p ms mnt dst auth signers amount l m d :
  token_program p -> is_wr ms dst = true -> is_wr ms mnt = true -> dst <> mnt ->
  a_owner (l dst) = p -> a_data (l dst) = DTok d -> a_owner (l mnt) = p -> a_data (l mnt) = DMint m -> m_init m = true ->
  (p = spl_token_id -> t_exts d = [] /\ m_exts m = []) ->
  t_state d = Initialized -> t_native d = None -> t_mint d = mnt ->
  ext_nontransferable m = false -> ext_paused m = false -> ext_conf_mint_burn m = false -> m_auth m = Some auth ->
  validate_owner p l ms auth auth signers = Ok tt ->
  t_amount d + amount < two64 -> m_supply m + amount < two64 ->
  exists l', tok_mint_to p ms mnt dst auth signers amount l = Ok l'.
Proof.
  intros T Wd Wm Ne Od Dd Om Dm Im X Sd Nd Md Nt Pa Cm Au Va O1 O2. unfold tok_mint_to.
  rewrite Dd. rewrite unpack_tok_ok; [|rewrite Sd; discriminate|intro E; apply X; exact E]. cbn [bind].
  rewrite Sd. cbn [acct_state_eqb negb]. rewrite bind_guard_true by reflexivity. rewrite Nd. rewrite bind_guard_true by reflexivity.
  rewrite bind_guard_true by (apply pk_eqb_eq; exact Md).
  rewrite Dm. rewrite unpack_mint_ok; [|exact Im|intro E; apply X; exact E]. cbn [bind].
  rewrite Nt, Pa, Cm, Au. cbn [negb orb of_option bind guard]. rewrite Va. cbn [bind].
  rewrite bind_guard_true by (unfold u64_ok; apply N.ltb_lt; exact O1). rewrite bind_guard_true by (unfold u64_ok; apply N.ltb_lt; exact O2).
  rewrite (set_data_ok _ _ _ _ _ Wd Od). cbn [bind]. rewrite set_data_ok; [|exact Wm|rewrite upd_other by exact Ne; exact Om].
  eexists. reflexivity.
Qed.

Lemma transfer_fee_some e m n fee : transfer_fee_of e m n = Ok fee ->
  match ext_fee m with
  | Some cfg => match calculate_epoch_fee cfg (e_epoch e) n with Some f => f | None => 0 end
  | None => 0
  end = fee.
Proof.
  unfold transfer_fee_of. destruct (ext_fee m) as [c|]; [|intro H; now injection H].
  destruct (calculate_epoch_fee c (e_epoch e) n); cbn; [intro H; now injection H|discriminate].
Qed.

Lemma wrap_live e accounts more l n r w a up wp s u esc owner signers x mu mw te tr ts fee :
  map i_key accounts = [r; w; a; up; wp; s; u; esc; owner] ++ more ->
  e_extra e l accounts (skipn 9 accounts) = Ok x -> presented accounts u x -> members_presented l owner signers x ->
  hook_agrees e mu n l s u esc owner x [r] ->
  (forall m, a_data (l owner) = DMultisig m -> a_owner (l owner) = up) ->
  derivable e (wrapped_mint_seeds u wp) tw_id -> derivable e (wrapped_mint_authority_seeds w) tw_id ->
  derivable e (ata_seeds a u up) ata_id ->
  w = wrapped_mint_of e u wp -> a = authority_of e w -> esc = escrow_of e u up wp ->
  token_program wp -> token_program up ->
  writable accounts esc -> writable accounts r -> writable accounts s -> writable accounts w ->
  0 < n -> n < two64 ->
  owner_acts accounts l up owner signers ->
  mint_account l w wp mw -> token_account l r wp tr -> (wp = spl_token_id -> t_exts tr = [] /\ m_exts mw = []) ->
  t_state tr = Initialized -> t_native tr = None -> t_mint tr = w ->
  ext_paused mw = false -> ext_conf_mint_burn mw = false -> ext_nontransferable mw = false -> m_auth mw = Some a ->
  (forall m, a_data (l a) <> DMultisig m) -> (forall t, a_data (l a) <> DTok t) ->
  mint_account l u up mu -> token_account l esc up te -> token_account l s up ts -> s <> esc ->
  (up = spl_token_id -> t_exts te = [] /\ t_exts ts = [] /\ m_exts mu = []) ->
  t_state te = Initialized -> t_state ts = Initialized -> t_mint te = u -> t_mint ts = u -> n <= t_amount ts ->
  ~ In XtNonTransferableAccount (map acct_ext_type_of (t_exts ts)) ->
  ext_paused mu = false -> t_owner te = a -> t_owner ts = owner -> t_delegate ts <> Some owner ->
  cpi_guard_locked ts = false -> (memo_required te = true -> e_memo e = true) ->
  transfer_fee_of e mu n = Ok fee -> fee <= n -> t_amount te + (n - fee) < two64 ->
  (fee <> 0 -> exists dx, add_withheld fee (t_exts te) = Some dx) ->
  (t_native ts <> None -> n <= a_lamports (l s)) ->
  t_amount tr + (n - fee) < two64 -> m_supply mw + (n - fee) < two64 ->
  exists l', succeeds e accounts (Wrap n) l l'.
Proof.
  intros Hk Hex Pre Mem' Agr Mo D1 D2 D3 Ew Ea Ee Tw Tu We Wr Ws Ww Pos Lt Own
    (Ow & Dw & Iw) (Or & Dr & Sr) Xb Str Ntr Mtr Paw Cmw Ntw Auw Msa Tsa
    (Ou & Du & Iu) (Oe & De & Se) (Os & Ds & Ss) Nse Xt Ste Sts Mte Mts Les Nts Pau Oa Owr Der Gus Mem Fee Fle Ov Wit Nat Ov1 Ov2.
  unfold succeeds. rewrite outcome_instr by exact Lt. cbn [map_instr process_instr].
  unfold process_wrap. assert (Z : (n =? 0) = false) by (apply N.eqb_neq; lia). rewrite Z. cbn [negb]. rewrite bind_guard_true by reflexivity.
  cbn [c_infos].
  destruct accounts as [|i0 [|i1 [|i2 [|i3 [|i4 [|i5 [|i6 [|i7 [|i8 add]]]]]]]]] eqn:Hc; try discriminate.
  rewrite <- Hc in *. assert (Hk' := Hk). rewrite Hc in Hk'. cbn [map app] in Hk'. injection Hk' as K0 K1 K2 K3 K4 K5 K6 K7 K8 Kr.
  assert (Hex' : e_extra e l accounts add = Ok x). { rewrite Hc in Hex at 2. cbn [skipn] in Hex. exact Hex. }
  clear Hex. cbv zeta. rewrite K0, K1, K2, K3, K4, K5, K6, K7, K8.
  unfold get_wrapped_mint_address, get_wrapped_mint_address_for_program, get_wrapped_mint_address_with_seed_for_program.
  rewrite (findable_get _ _ _ D1). cbn [bind fst].
  change (pda e (wrapped_mint_seeds u wp) tw_id) with (wrapped_mint_of e u wp).
  rewrite <- Ew. rewrite bind_guard_true by apply pk_eqb_refl.
  unfold get_wrapped_mint_authority_with_seed, get_wrapped_mint_authority_with_seed_for_program.
  pose proof (findable_get _ _ _ D2) as F2. rewrite F2. cbn [bind fst snd].
  change (pda e (wrapped_mint_authority_seeds w) tw_id) with (authority_of e w) in *. rewrite <- Ea in *.
  rewrite bind_guard_true by apply pk_eqb_refl.
  unfold get_associated_token_address. pose proof (findable_get _ _ _ D3) as F3. rewrite F3. cbn [bind fst].
  assert (E3 : pda e (ata_seeds a u up) ata_id = esc).
  { rewrite Ee. unfold escrow_of, escrow_for. fold (wrapped_mint_of e u wp). rewrite <- Ew. fold (authority_of e w). rewrite <- Ea. reflexivity. }
  rewrite E3. rewrite bind_guard_true by apply pk_eqb_refl.
  rewrite De. rewrite (pod_unpack_tok_ok te) by (rewrite Ste; discriminate). cbn [bind]. rewrite Oa.
  rewrite bind_guard_true by apply pk_eqb_refl.
  rewrite Du. rewrite pod_unpack_mint_ok by exact Iu. cbn [bind].
  rewrite (transfer_fee_some e mu n fee Fee). rewrite bind_guard_true by (apply N.leb_le; exact Fle).
  assert (Nu_w : u <> w) by (rewrite Ew; apply unwrapped_neq_wrapped).
  assert (Nsw : s <> w) by (intro X; rewrite X in Ds; congruence).
  assert (Nsu : s <> u) by (intro X; rewrite X in Ds; congruence).
  assert (New : esc <> w) by (intro X; rewrite X in De; congruence).
  assert (Nrw : r <> w) by (intro X; rewrite X in Dr; congruence).
  assert (Ner : r <> esc) by (intro X; rewrite X in Dr; congruence).
  assert (Nrs : r <> s) by (intro X; rewrite X in Dr; congruence).
  assert (Neu : esc <> u) by (intro X; rewrite X in De; congruence).
  assert (Nru : r <> u) by (intro X; rewrite X in Dr; congruence).
  assert (Nas : a <> s) by (intro X; apply (Tsa ts); rewrite X; exact Ds).
  assert (Nae : a <> esc) by (intro X; apply (Tsa te); rewrite X; exact De).
  apply writable_is_wr in We, Wr, Ws, Ww.
  set (mt := transfer_metas l s u esc owner x).
  assert (Inmt : forall m, In m mt -> m = meta_w s false \/ m = meta_r u false \/ m = meta_w esc false \/ m = meta_r owner (auth_is_signer l owner) \/ In m x).
  { intros m Hm. unfold mt, transfer_metas in Hm. apply in_app_or in Hm. destruct Hm as [[<-|[<-|[<-|[<-|[]]]]]|Hm]; auto. }
  assert (AS : auth_is_signer l owner = is_nil signers).
  { unfold auth_is_signer. destruct Own as [(E1 & S & NM)|(E1 & S & m & O & D & L)].
    - rewrite E1. destruct (a_data (l owner)) as [| | | |m|] eqn:E; try reflexivity. exfalso. apply (NM m eq_refl). exact (Mo m eq_refl).
    - rewrite D. destruct signers; [contradiction|reflexivity]. }
  assert (INV : forall b, invoke_signed e (mkCtx tw_id accounts) [u] (mkIx up mt b) ([s; u; esc; owner] ++ map i_key x) [] l = exec_program e up mt b l).
  { intro b. rewrite (invoke_signed_eval _ _ _ _ _ _ _ []).
    - reflexivity.
    - cbn [ix_metas]. intros m Hm Wm [X|[]]. apply Inmt in Hm.
      destruct Hm as [Em|[Em|[Em|[Em|Hx]]]]; try (rewrite Em in X, Wm; cbn [i_key i_writable meta_w meta_r] in X, Wm; try discriminate; congruence).
      destruct (Pre m Hx) as (_ & P & _). destruct (P Wm) as [_ P2]. apply P2. symmetry. exact X.
    - reflexivity.
    - cbn [ix_prog c_infos]. apply has_key_keys. rewrite Hk. cbn. tauto.
    - cbn [ix_metas c_infos]. intros m Hm. apply Inmt in Hm. split.
      + destruct Hm as [->|[->|[->|[->|Hx]]]]; cbn [meta_w meta_r i_key app]; [left; reflexivity|right; left; reflexivity|do 2 right; left; reflexivity|do 3 right; left; reflexivity|].
        do 4 right. apply in_map. exact Hx.
      + apply has_key_keys. destruct Hm as [Em|[Em|[Em|[Em|Hx]]]]; try (rewrite Hk, Em; cbn; tauto). exact (proj1 (Pre m Hx)).
    - cbn [ix_metas c_infos]. intros m Hm X. apply Inmt in Hm.
      destruct Hm as [E|[E|[E|[E|Hx]]]]; try (rewrite E in *; cbn [i_key meta_w meta_r i_writable] in *; first [discriminate | exact Ws | exact We]).
      destruct (Pre m Hx) as (_ & P & _). destruct (P X) as [P1 _]. apply writable_is_wr. exact P1.
    - cbn [ix_metas c_infos]. intros m Hm X. left. apply Inmt in Hm. apply signed_is_sig.
      destruct Hm as [E|[E|[E|[E|Hx]]]]; try (rewrite E in *; cbn [i_key i_signer meta_w meta_r] in *; discriminate).
      + rewrite E in *. cbn [i_key i_signer meta_w meta_r] in *. destruct Own as [(E1 & S & _)|(E1 & S & _)]; [exact S|].
        rewrite AS in X. destruct signers; [contradiction|discriminate].
      + exact (proj2 (proj2 (Pre m Hx)) X). }
  assert (VA : validate_owner up l mt owner owner (map i_key x) = Ok tt).
  { apply (owner_acts_extra up l accounts owner signers x _ Own Mem').
    intros E1. unfold is_sig. rewrite AS, E1. cbn. rewrite pk_eqb_refl. rewrite !orb_true_r. reflexivity. }
  assert (Wms : is_wr mt s = true). { unfold is_wr, mt. cbn. rewrite pk_eqb_refl. reflexivity. }
  assert (Wme : is_wr mt esc = true). { unfold is_wr, mt. cbn. rewrite pk_eqb_refl. cbn. rewrite !orb_true_r. reflexivity. }
  assert (TL : forall xf, xf = None \/ xf = Some fee -> exists l1,
    tok_transfer_checked e up true mt s u esc owner (map i_key x) n (m_decimals mu) xf l = Ok l1 /\ forall k, k = r \/ is_tw_pda k = true -> k <> s -> k <> esc -> l1 k = l k).
  { intros xf Hxf. apply (transfer_live2 e up true mt s u esc owner (map i_key x) n l ts mu te fee xf (fun k => k = r \/ is_tw_pda k = true)); try assumption.
    - intro E. destruct (Xt E) as (A & B & C). repeat split; assumption.
    - intros l3 F3'. destruct (hook_agrees_run e mu n l s u esc owner x [r] [meta_w s false; meta_r u false; meta_w esc false; meta_r owner (auth_is_signer l owner)] l3 Agr) as (l4 & R4 & G4); [reflexivity|exact F3'|]. exists l4. split; [exact R4|].
      intros k [Ek|Ek]; apply G4; [left; left; symmetry; exact Ek|right; exact Ek]. }
  assert (L1 : exists l1, (if pk_eqb up t22_id
     then invoke_transfer_checked_with_fee e (mkCtx tw_id accounts) [u] up s u esc owner add n (m_decimals mu) fee [] l
     else invoke_transfer_checked e (mkCtx tw_id accounts) [u] up s u esc owner add n (m_decimals mu) [] l) = Ok l1 /\ forall k, k = r \/ is_tw_pda k = true -> k <> s -> k <> esc -> l1 k = l k).
  { destruct (pk_eqb up t22_id) eqn:E22.
    - destruct (TL (Some fee)) as (l1 & T1 & F1); [right; reflexivity|]. exists l1. split; [|exact F1].
      unfold invoke_transfer_checked_with_fee, ix_transfer_checked_with_fee, check_t22_program_account. rewrite E22. cbn [guard bind c_infos].
      rewrite Hex'. cbn [bind]. fold mt. rewrite INV. rewrite exec_program_tok by exact Tu.
      unfold tok_exec, mt, transfer_metas. cbn [map app i_key meta_w meta_r]. rewrite E22. cbn [guard bind]. exact T1.
    - destruct (TL None) as (l1 & T1 & F1); [left; reflexivity|]. exists l1. split; [|exact F1].
      unfold invoke_transfer_checked, ix_transfer_checked, check_spl_token_program_account.
      assert (CK : (pk_eqb up spl_token_id || pk_eqb up t22_id)%bool = true) by (apply token_program_eqb; exact Tu).
      rewrite CK. cbn [guard bind c_infos]. rewrite Hex'. cbn [bind]. fold mt. rewrite INV. rewrite exec_program_tok by exact Tu.
      unfold tok_exec, mt, transfer_metas. cbn [map app i_key meta_w meta_r]. exact T1. }
  destruct L1 as (l1 & -> & L1). cbn [bind].
  assert (Pw : is_tw_pda w = true) by (rewrite Ew; apply is_tw_pda_wrapped).
  assert (Pa : is_tw_pda a = true) by (rewrite Ea; apply is_tw_pda_authority).
  unfold ix_mint_to, check_spl_token_program_account.
  assert (CK : (pk_eqb wp spl_token_id || pk_eqb wp t22_id)%bool = true) by (apply token_program_eqb; exact Tw).
  rewrite CK. cbn [guard bind app map is_nil].
  rewrite (invoke_signed_eval _ _ _ _ _ _ _ [a]).
  2:{ cbn [ix_metas]. intros m [<-|[<-|[<-|[]]]] Wm [X|[]]; cbn [i_key i_writable meta_w meta_r] in X, Wm; try discriminate; congruence. }
  2:{ cbn [map_res c_prog]. assert (CP : create_program_address e (wrapped_mint_authority_signer_seeds w (find_bump e (wrapped_mint_authority_seeds w) tw_id)) tw_id = Ok a).
      { apply find_pda_create in F2. exact F2. }
      rewrite CP. reflexivity. }
  2:{ cbn [ix_prog c_infos]. apply has_key_keys. rewrite Hk. cbn. tauto. }
  2:{ cbn [ix_metas c_infos]. intros m Hm. split; [destruct Hm as [<-|[<-|[<-|[]]]]; cbn; tauto|]. apply has_key_keys. rewrite Hk. destruct Hm as [<-|[<-|[<-|[]]]]; cbn; tauto. }
  2:{ cbn [ix_metas c_infos]. intros m [<-|[<-|[<-|[]]]] X; cbn [i_key meta_w meta_r] in *; try discriminate; [exact Ww|exact Wr]. }
  2:{ cbn [ix_metas c_infos]. intros m [<-|[<-|[<-|[]]]] X; cbn in *; try discriminate. auto. }
  cbn [ix_prog ix_metas ix_body]. rewrite exec_program_tok by exact Tw. cbn [tok_exec map meta_w meta_r i_key].
  apply (mint_to_live wp _ w r a [] (n - fee) l1 mw tr); try assumption.
  - unfold is_wr. cbn. rewrite pk_eqb_refl. cbn. rewrite !orb_true_r. reflexivity.
  - unfold is_wr. cbn. rewrite pk_eqb_refl. reflexivity.
  - rewrite (L1 r (or_introl eq_refl)) by congruence. exact Or.
  - rewrite (L1 r (or_introl eq_refl)) by congruence. exact Dr.
  - rewrite (L1 w (or_intror Pw)) by congruence. exact Ow.
  - rewrite (L1 w (or_intror Pw)) by congruence. exact Dw.
  - apply validate_owner_ok. { unfold is_sig. cbn. rewrite pk_eqb_refl. rewrite !orb_true_r. reflexivity. }
    intros m Hm. exfalso. rewrite (L1 a (or_intror Pa)) in Hm by congruence. exact (Msa m Hm).
Qed.

(** ** In a reachable state the sizes of the escrow and the wrapped supply take care of themselves. *)
Lemma tok_native_none e0 l p k t : Inv e0 l -> token_program p -> a_owner (l k) = p -> a_data (l k) = DTok t -> is_native_mint p (t_mint t) = false -> t_native t = None.
Proof.
  intros I T O D N. assert (T' : token_program (a_owner (l k))) by (rewrite O; exact T).
  destruct (inv_tok _ _ _ _ I T' D) as (_ & _ & A & _). rewrite O, N in A. destruct (t_native t); [|reflexivity]. destruct A as [A _]. discriminate A. discriminate.
Qed.
Lemma wrapped_exts_nt p w a m : wrapped_exts p w a (m_exts m) -> ext_nontransferable m = false.
Proof.
  intro H. apply wrapped_exts_facts in H. destruct H as (_ & _ & F). unfold ext_nontransferable.
  apply not_true_is_false. intro E. apply existsb_exists in E. destruct E as (x & Hx & Ex). specialize (F x Hx). destruct x; try discriminate; tauto.
Qed.
Lemma wrappable_aux e0 e past l u up wp accounts more signers x n recipient source owner mu mw ts tr te w a esc :
  history e0 past l -> same_curve e0 e ->
  spl_or_t22 wp -> spl_or_t22 up ->
  w = wrapped_mint_of e u wp -> a = authority_of e w -> esc = escrow_of e u up wp ->
  derivable e (wrapped_mint_seeds u wp) tw_id -> derivable e (wrapped_mint_authority_seeds w) tw_id -> derivable e (ata_seeds a u up) ata_id ->
  map i_key accounts = [recipient; w; a; up; wp; source; u; esc; owner] ++ more ->
  e_extra e l accounts (skipn 9 accounts) = Ok x -> presented accounts u x -> members_presented l owner signers x ->
  hook_agrees e mu n l source u esc owner x [recipient] ->
  (forall m, a_data (l owner) = DMultisig m -> a_owner (l owner) = up) ->
  writable accounts esc -> writable accounts recipient -> writable accounts source -> writable accounts w ->
  owner_acts accounts l up owner signers ->
  mint_account l w wp mw -> token_account l recipient wp tr -> t_mint tr = w -> t_state tr = Initialized ->
  token_account l source up ts -> t_mint ts = u -> t_owner ts = owner -> t_state ts = Initialized -> t_delegate ts <> Some owner -> cpi_guard_locked ts = false ->
  ~ In XtNonTransferableAccount (map acct_ext_type_of (t_exts ts)) ->
  0 < n -> n <= t_amount ts -> source <> esc ->
  mint_account l u up mu -> ext_paused mu = false ->
  token_account l esc up te -> t_mint te = u -> t_state te = Initialized -> (memo_required te = true -> e_memo e = true) ->
  (ext_fee mu <> None -> In XtTransferFeeAmount (map acct_ext_type_of (t_exts te))) -> t_owner te = a ->
  (ever (no_permanent_delegate u) past l \/ supply l w + n < two64) ->
  (is_native_mint up u = true -> balance l esc + n < two64 /\ n <= lamports l source) ->
  exists l', succeeds e accounts (Wrap n) l l'.
Proof.
  intros H C Tw Tu Ew Ea Ee D1 D2 D3 Hk Hex Pre Mem' Agr Mo We Wr Ws Ww Own Hw Hr Mr Str Hs Ms Os Sts Des Gus Nts Pos Le Nse Hu Pau He Me Ste Mem Wit Oe' Sup Nat.
  assert (I : Inv e l). { apply (Inv_curve e0 e l C). exact (history_inv _ _ _ H). }
  assert (Nw : is_native_mint wp w = false).
  { unfold is_native_mint. apply pk_eqb_neq. intro X. assert (P : is_tw_pda w = true) by (rewrite Ew; apply is_tw_pda_wrapped). rewrite X in P. destruct (pk_eqb wp spl_token_id); discriminate. }
  pose proof Hw as (Ow & Dw & Iw). pose proof Hr as (Or & Dr & Sr). pose proof Hs as (Oso & Dso & Sso). pose proof Hu as (Ou & Du & Iu). pose proof He as (Oe & De & Se).
  assert (Bps : forall c, ext_fee mu = Some c -> tf_bps (fc_older c) <= 10000 /\ tf_bps (fc_newer c) <= 10000).
  { apply (fees_sane e l u mu I); [rewrite Ou; exact Tu|exact Du]. }
  destruct (inv_wrapped e l u wp I) as [B|[_ (_ & mw' & Dw' & _ & Auw & Xw)]].
  { exfalso. rewrite <- Ew in B. destruct B as [B _]. rewrite B in Dw. discriminate. }
  rewrite <- Ew in Dw', Auw, Xw. rewrite <- Ea in Auw, Xw. assert (mw' = mw) by (clear -Dw Dw'; congruence). subst mw'.
  destruct (wrapped_exts_plain _ _ _ _ Xw) as (Paw & Cmw & Pdw). pose proof (wrapped_exts_nt _ _ _ _ Xw) as Ntw.
  assert (Tww : token_program (a_owner (l w))) by (rewrite Ow; exact Tw).
  assert (Sw : supply l w = m_supply mw) by (unfold supply; rewrite Dw; reflexivity).
  assert (Pda : is_tw_pda a = true) by (rewrite Ea; apply is_tw_pda_authority).
  assert (Tsa : forall t, a_data (l a) <> DTok t).
  { intros t X. destruct (inv_pda _ _ _ I Pda) as [[B _]|[(u1 & p1 & _ & _ & _ & m1 & B & _)|[(u1 & p1 & _ & _ & _ & B)|(u1 & v1 & _ & _ & B)]]]; clear -B X; congruence. }
  assert (Ntr : t_native tr = None) by (apply (tok_native_none e l wp recipient tr I Tw Or Dr); rewrite Mr; exact Nw).
  (* the recipient never holds more than the supply *)
  assert (Rs : t_amount tr <= m_supply mw).
  { destruct (N.eq_0_gt_0_cases (t_amount tr)) as [Z|P]; [rewrite Z; lia|].
    destruct (held_mint e l wp recipient tr I Tw Or Dr P) as [X|(m2 & O2 & Dm2 & L2)]; [rewrite Mr in X; clear -X Nw; congruence|].
    rewrite Mr in Dm2. assert (m2 = mw) by (clear -Dw Dm2; congruence). subst m2. exact L2. }
  destruct (is_native_mint up u) eqn:N.
  - destruct (Nat eq_refl) as [A1 A2]. unfold balance in A1. rewrite De in A1.
    assert (SB : m_supply mw + n < two64).
    { destruct Sup as [NP|Sup]; [|rewrite Sw in Sup; exact Sup].
      destruct (backed_l e0 past l u up wp H Tw Tu Ou NP) as [_ Bk].
      rewrite (wrapped_mint_of_curve e0 e u wp C) in Bk. rewrite (escrow_of_curve e0 e u up wp C) in Bk. rewrite <- Ew, <- Ee in Bk. rewrite Sw in Bk.
      unfold balance in Bk. rewrite De in Bk. lia. }
    assert (Lt : n < two64) by lia.
    destruct (transfer_fee_live e mu n Bps Lt) as (fee & Fe & Fl & F0).
    assert (Z : fee = 0).
    { apply F0. assert (mu = wrapped_sol_mint). { unfold is_native_mint in N. apply pk_eqb_eq in N. destruct Tu as [E|E]; rewrite E in *; cbn [pk_eqb spl_token_id t22_id N.eqb Pos.eqb] in N.
        - destruct (inv_sol _ _ I) as [_ S]. rewrite N in Du. clear -S Du. congruence.
        - destruct (inv_acct _ _ I u) as (_ & _ & A). specialize (A N Ou). clear -A Du. congruence. }
      subst mu. reflexivity. }
    apply (wrap_live e accounts more l n recipient w a up wp source u esc owner signers x mu mw te tr ts fee); try assumption; try (rewrite Z; lia).
    + intro E. split; [apply (spl_extless_tok e l recipient tr I); congruence|apply (spl_extless e l w mw I); [rewrite <- E; exact Ow|exact Dw]].
    + intro m. exact (pda_not_multisig e l a m I Pda).
    + intro E. split; [apply (spl_extless_tok e l esc te I); congruence|]. split; [apply (spl_extless_tok e l source ts I); congruence|].
      apply (spl_extless e l u mu I); congruence.
    + intros _. exact A2.
  - assert (TB : tok_val te + tok_val ts < two64) by (apply (two_balances e l up u esc source te ts I Tu N); [congruence|assumption..]).
    unfold tok_val in TB. assert (Lt : n < two64) by lia.
    destruct (transfer_fee_live e mu n Bps Lt) as (fee & Fe & Fl & F0).
    assert (SB : m_supply mw + n < two64).
    { destruct Sup as [NP|Sup]; [|rewrite Sw in Sup; exact Sup].
      destruct (backed_l e0 past l u up wp H Tw Tu Ou NP) as [_ Bk].
      rewrite (wrapped_mint_of_curve e0 e u wp C) in Bk. rewrite (escrow_of_curve e0 e u up wp C) in Bk. rewrite <- Ew, <- Ee in Bk. rewrite Sw in Bk.
      unfold balance in Bk. rewrite De in Bk. lia. }
    apply (wrap_live e accounts more l n recipient w a up wp source u esc owner signers x mu mw te tr ts fee); try assumption; try lia.
    + intro E. split; [apply (spl_extless_tok e l recipient tr I); congruence|apply (spl_extless e l w mw I); [rewrite <- E; exact Ow|exact Dw]].
    + intro m. exact (pda_not_multisig e l a m I Pda).
    + intro E. split; [apply (spl_extless_tok e l esc te I); congruence|]. split; [apply (spl_extless_tok e l source ts I); congruence|].
      apply (spl_extless e l u mu I); congruence.
    + intro F. apply add_withheld_live; [|lia]. apply Wit. intro X. apply F. exact (F0 X).
    + intro X. exfalso. apply X. apply (tok_native_none e l up source ts I Tu Oso Dso). rewrite Ms. exact N.
Qed.

Lemma wrappable_aux2_h e0 e past l u up wp accounts more signers x n recipient source owner mu mw ts tr te w a esc :
  history e0 past l -> same_curve e0 e ->
  spl_or_t22 wp -> spl_or_t22 up ->
  w = wrapped_mint_of e u wp -> a = authority_of e w -> esc = escrow_of e u up wp ->
  derivable e (wrapped_mint_seeds u wp) tw_id -> derivable e (wrapped_mint_authority_seeds w) tw_id -> derivable e (ata_seeds a u up) ata_id ->
  map i_key accounts = [recipient; w; a; up; wp; source; u; esc; owner] ++ more ->
  e_extra e l accounts (skipn 9 accounts) = Ok x -> presented accounts u x -> members_presented l owner signers x ->
  hook_agrees e mu n l source u esc owner x [recipient] ->
  (forall m, a_data (l owner) = DMultisig m -> a_owner (l owner) = up) ->
  writable accounts esc -> writable accounts recipient -> writable accounts source -> writable accounts w ->
  owner_acts accounts l up owner signers ->
  mint_account l w wp mw -> token_account l recipient wp tr -> t_mint tr = w -> t_state tr = Initialized ->
  holder l up u source owner ts -> open_account l source ->
  0 < n -> n <= t_amount ts -> source <> esc ->
  unpaused l up u mu ->
  token_account l esc up te -> t_state te = Initialized ->
  (ext_fee mu <> None -> In XtTransferFeeAmount (map acct_ext_type_of (t_exts te))) ->
  (ever (no_permanent_delegate u) past l \/ supply l w + n < two64) ->
  (native_mint u -> lamports l esc + lamports l source < two64) ->
  exists l', succeeds e accounts (Wrap n) l l'.
Proof.
  intros H C Tw Tu Ew Ea Ee D1 D2 D3 Hk Hex Pre Mem' Agr Mo We Wr Ws Ww Own Hw Hr Mr Str (H1 & H2 & H3 & H4 & H5 & H6) Op Pos Le Nse (M1 & M2) He Ste Wit Sup Nat.
  assert (R : reachable e0 l) by (exists past; exact H). pose proof He as (Oe & De & _). pose proof H1 as (Os & Ds & _).
  pose proof (esc_settled e0 e l u up wp R Tu) as Se. rewrite <- Ee, <- Ew, <- Ea in Se. destruct (settled_tok _ _ _ _ _ Se De) as [_ G].
  pose proof G as (Mte & Ote & _). destruct (Op ts Ds) as [_ Nts].
  apply (wrappable_aux e0 e past l u up wp accounts more signers x n recipient source owner mu mw ts tr te w a esc); try assumption.
  - intro X. rewrite (genuine_no_memo _ _ _ _ G) in X. discriminate.
  - intro N. specialize (Nat (native_mint_b _ _ N)). unfold lamports in Nat.
    assert (A1 : t_amount ts <= a_lamports (l source)) by (apply (sol_amount e0 l up source ts R Tu Os Ds); rewrite H2; exact N).
    assert (A2 : t_amount te <= a_lamports (l esc)) by (apply (sol_amount e0 l up esc te R Tu Oe De); rewrite Mte; exact N).
    unfold balance, lamports. rewrite De. lia.
Qed.
Lemma wrappable_aux2 e0 e past l u up wp accounts more signers n recipient source owner mu mw ts tr te w a esc :
  history e0 past l -> same_curve e0 e ->
  spl_or_t22 wp -> spl_or_t22 up ->
  w = wrapped_mint_of e u wp -> a = authority_of e w -> esc = escrow_of e u up wp ->
  derivable e (wrapped_mint_seeds u wp) tw_id -> derivable e (wrapped_mint_authority_seeds w) tw_id -> derivable e (ata_seeds a u up) ata_id ->
  map i_key accounts = [recipient; w; a; up; wp; source; u; esc; owner] ++ more ->
  incl signers more -> e_extra e l accounts (skipn 9 accounts) = Ok (map (fun k => meta_r k true) signers) ->
  (forall m, a_data (l owner) = DMultisig m -> a_owner (l owner) = up) ->
  writable accounts esc -> writable accounts recipient -> writable accounts source -> writable accounts w ->
  owner_acts accounts l up owner signers ->
  mint_account l w wp mw -> token_account l recipient wp tr -> t_mint tr = w -> t_state tr = Initialized ->
  holder l up u source owner ts -> open_account l source ->
  0 < n -> n <= t_amount ts -> source <> esc ->
  transferable l up u mu ->
  token_account l esc up te -> t_state te = Initialized ->
  (ext_fee mu <> None -> In XtTransferFeeAmount (map acct_ext_type_of (t_exts te))) ->
  (ever (no_permanent_delegate u) past l \/ supply l w + n < two64) ->
  (native_mint u -> lamports l esc + lamports l source < two64) ->
  exists l', succeeds e accounts (Wrap n) l l'.
Proof.
  intros H C Tw Tu Ew Ea Ee D1 D2 D3 Hk Hin Hex Mo We Wr Ws Ww Own Hw Hr Mr Str Ho Op Pos Le Nse (M1 & M2 & M3) He Ste Wit Sup Nat.
  apply (wrappable_aux2_h e0 e past l u up wp accounts more signers (map (fun k => meta_r k true) signers) n recipient source owner mu mw ts tr te w a esc); try assumption.
  - exact (plain_presented accounts l up owner u signers Own).
  - apply plain_members.
  - intros p X. rewrite M3 in X. discriminate X.
  - split; assumption.
Qed.
