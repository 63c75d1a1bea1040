(** * PropCliSyncSpl.v — C47: the sync-metadata-to-spl-token command. *)
From Verif Require Import Base Codec State Pda TokenProg Cpi Ata Meta Processor Builders Cli Tac PdaProofs TokProofs ProcProofs Spec HistorySpec CliSpec CloseProofs SpecLemmas
  InvState InvTw InvHist SyncProofs2 PropSync PropReach PropReach2 CliProofs CliSign CliCreate CodecProofs MetaProofs PropCreate PropCli PropCliEscrow PropCliWrap PropCliUnwrap PropCliClose PropCliSync PropEscrow Demo Demo2 DemoHist.

(** The authority's address never holds anything but lamports. *)
Lemma authority_unallocated e0 e l u p : reachable e0 l -> same_curve e0 e -> unallocated l (authority_of e (wrapped_mint_of e u p)).
Proof.
  intros [past H] C. pose proof (history_inv _ _ _ H) as I. rewrite <- (wrapped_mint_of_curve e0 e u p C), <- (authority_of_curve e0 e _ C).
  destruct (inv_pda _ _ _ I (is_tw_pda_authority e0 (wrapped_mint_of e0 u p))) as [B|[(u' & p' & _ & E & _)|[(u' & p' & _ & E & _)|(u' & v & E & _)]]].
  - exact B.
  - exfalso. symmetry in E. revert E. apply wrapped_neq_authority.
  - exfalso. revert E. apply authority_neq_backpointer.
  - exfalso. revert E. apply authority_neq_canonical.
Qed.
Lemma cli_sync_spl_eval e payer u source program l w a md :
  w = wrapped_mint_of e u spl_token_id -> a = authority_of e w -> md = metaplex_of e w -> sync_addresses_exist e u spl_token_id -> derivable e (metaplex_seeds w) mpl_id ->
  cli_sync_to_spl_token e payer u source program l = Ok (mkTx payer [TxTokenWrap (build_sync_to_spl_token tw_id md a w u source program)] [payer]).
Proof.
  intros Ew Ea Em (D1 & D2) D3. unfold cli_sync_to_spl_token. rewrite (get_w_ok e u spl_token_id D1), <- Ew. cbn [bind]. rewrite <- Ew in D2. rewrite (get_a_ok e w D2), <- Ea. cbn [bind].
  unfold metaplex_find_pda. rewrite (findable_get e _ _ D3). cbn [bind fst]. rewrite Em. reflexivity.
Qed.
Lemma sync_spl_unsigned prog md a w u s o k : ~ signed (tx_metas (build_sync_to_spl_token prog md a w u s o)) k.
Proof.
  intros (m & Hm & _ & Hs). cbn [tx_metas build_sync_to_spl_token app] in Hm. destruct Hm as [<-|[<-|[<-|[<-|[<-|[<-|[<-|Hm]]]]]]]; try discriminate Hs.
  apply in_app_or in Hm. destruct Hm as [Hm|Hm]; [destruct s|destruct o]; try contradiction Hm; destruct Hm as [<-|[]]; discriminate Hs.
Qed.
Lemma sync_spl_writes prog md a w u s o k : writable (tx_metas (build_sync_to_spl_token prog md a w u s o)) k -> k = md \/ k = a.
Proof.
  intros (m & Hm & Hk & Hs). cbn [tx_metas build_sync_to_spl_token app] in Hm.
  destruct Hm as [<-|[<-|[<-|[<-|[<-|[<-|[<-|Hm]]]]]]]; try discriminate Hs; [left; symmetry; exact Hk|right; symmetry; exact Hk|].
  apply in_app_or in Hm. destruct Hm as [Hm|Hm]; [destruct s|destruct o]; try contradiction Hm; destruct Hm as [<-|[]]; discriminate Hs.
Qed.

Lemma cli_sync_spl_aux : forall e0 e fee payer u source program l src w a md,
  reachable e0 l -> same_curve e0 e -> w = wrapped_mint_of e u spl_token_id -> a = authority_of e w -> md = metaplex_of e w -> ~ unallocated l w ->
  sync_addresses_exist e u spl_token_id -> derivable e (metaplex_seeds w) mpl_id -> derivable e (metaplex_seeds u) mpl_id ->
  authentic_metadata e l u src -> spl_sync_asks e l u source program -> (forall m, mint_account l u t22_id m -> ~ pointer_of m (Some payer)) ->
  (forall k v, In (k, v) (tm_additional src) -> ~ malformed e k v) ->
  wallet l payer -> md <> payer -> fee + e_rent e 0 <= lamports l payer ->
  (to_be_made e l md a /\ (forall d, converted e src d -> metaplex_accepts e None d)) \/
  (exists old, ours l md a old /\ forall d, converted e src d -> metaplex_accepts e (mx_collection old) d) ->
  exists t l' d x', cli_sync_to_spl_token e payer u source program l = Ok t /\ accepted e fee t l l' /\
    converted e src d /\ metaplex_account l' md x' /\ shows x' d /\ no_verified_creator x' /\ mx_update_authority x' = a /\ paid l l' payer fee /\
    (unallocated l md -> mx_mint x' = w /\ mx_is_mutable x' = true /\ lamports l' md = lamports l md + e_mpl_cost e /\ lamports l a = lamports l' a + e_mpl_cost e /\
       a_data (l' a) = a_data (l a) /\ a_owner (l' a) = a_owner (l a) /\ only_changed l l' [payer; md; a]) /\
    (forall old, ours l md a old -> same_metaplex_frame old x' /\ lamports l' md = lamports l md /\ only_changed l l' [payer; md]).
Proof.
  intros e0 e fee payer u source program l src w a md R C Ew Ea Em Nu Ad D3 Dm A Ask Npp Mal Wal Nmd Fee St.
  pose proof (cli_sync_spl_eval e payer u source program l w a md Ew Ea Em Ad D3) as Cli.
  set (ix := build_sync_to_spl_token tw_id md a w u source program) in *.
  pose proof Wal as (Wo & Wd & Wt & _). remember (charge payer fee l) as l0 eqn:E0.
  assert (R0 : reachable e0 l0) by (rewrite E0; apply charge_reachable; assumption).
  assert (Nw : w <> payer). { intros Q. rewrite <- Q, Ew, is_tw_pda_wrapped in Wt. discriminate Wt. }
  assert (Na : a <> payer). { intros Q. rewrite <- Q, Ea, is_tw_pda_authority in Wt. discriminate Wt. }
  assert (Cw : l0 w = l w) by (rewrite E0; apply charge_other; exact Nw).
  assert (Ca : l0 a = l a) by (rewrite E0; apply charge_other; exact Na).
  assert (Cm : l0 md = l md) by (rewrite E0; apply charge_other; exact Nmd).
  set (acc := raised e payer [TxTokenWrap ix] (tx_metas ix)).
  assert (Hk : map i_key acc = [md; a; w; u; mpl_id; system_id; rent_sysvar_id] ++ map i_key (opt_meta source ++ opt_meta program)) by (unfold acc; rewrite raised_keys; reflexivity).
  assert (K7 : keys_are acc [md; a; w; u; mpl_id; system_id; rent_sysvar_id]) by (eexists; exact Hk).
  assert (Wr : forall k, k = md \/ k = a -> writable acc k).
  { intros k Q. apply raised_writable; [left; reflexivity|]. exists (meta_w k false). split; [|split; reflexivity]. destruct Q as [-> | ->]; [left; reflexivity|right; left; reflexivity]. }
  assert (A0 : authentic_metadata e l0 u src) by (rewrite E0; apply charge_authentic; [exact Npp|exact A]).
  assert (Se : forall err, ~ source_error e l0 u (nth_error (map i_key acc) 7) (nth_error (map i_key acc) 8) err).
  { intro err. apply (no_source_error e l0 u src); [exact A0|exact Dm|]. intros k Hkk. rewrite E0 in Hkk. apply charge_home in Hkk. destruct (Ask k Hkk) as [Es Ep]. rewrite Hk, Es.
    split; [reflexivity|]. intro O. rewrite E0 in O |- *. rewrite (proj2 (charge_same payer fee l k)) in O |- *. rewrite (Ep O). reflexivity. }
  destruct (reach_wrapped e0 e l u spl_token_id R C) as [Q|(_ & m & M & Au & _ & _)]; rewrite <- Ew in *; [exfalso; exact (Nu Q)|]. rewrite <- Ea in Au.
  pose proof (authority_unallocated e0 e l u spl_token_id R C) as [Ua1 Ua2]. rewrite <- Ew, <- Ea in Ua1, Ua2.
  assert (Ow : a_owner (l w) = spl_token_id) by (destruct M as (O & _); exact O).
  assert (Live : exists l2, succeeds e acc SyncMetadataToSplToken l0 l2).
  { apply (C28_live e acc l0 md a w u system_id rent_sysvar_id K7); [exact Ad|exact D3|exact Ew|exact Ea|exact Em|rewrite Cw; exact Ow|apply Wr; left; reflexivity|exact Se| |].
    - intros s k v As. rewrite (authentic_fun e l0 u s src As A0). apply Mal.
    - destruct St as [(((U1 & U2) & Co & _) & Acc)|(old & (O1 & O2 & O3) & Acc)]; [left|right].
      + unfold no_data, lamports. rewrite Cm, Ca, U1, U2, Ua1, Ua2. split; [reflexivity|]. split; [reflexivity|]. split; [apply Wr; right; reflexivity|]. split; [reflexivity|]. split; [reflexivity|].
        split; [exact Co|]. split; [exists m; split; [|exact Au]; unfold mint_data; rewrite Cw; destruct M as (_ & M); exact M|].
        intros s d As Cv. rewrite (authentic_fun e l0 u s src As A0) in Cv. exact (Acc d Cv).
      + exists old. split; [unfold metaplex_account; rewrite Cm; exact O1|]. split; [exact O2|]. split; [exact O3|].
        intros s d As Cv. rewrite (authentic_fun e l0 u s src As A0) in Cv. exact (Acc d Cv). }
  destruct Live as [l2 H2].
  destruct (C28_spl e acc l0 l2 md a w u mpl_id system_id rent_sysvar_id K7 H2) as (_ & _ & s & d & As & Cv & Eff).
  rewrite (authentic_fun e l0 u s src As A0) in *. clear s As.
  assert (Fp : fee <= a_lamports (l payer)) by (unfold lamports in Fee; lia).
  pose proof (one_sends e fee payer ix SyncMetadataToSplToken l l0 (sync_spl_unsigned tw_id md a w u source program) eq_refl eq_refl Wal Fee E0) as Snd.
  fold acc in Snd. unfold succeeds in H2. rewrite H2 in Snd.
  destruct Eff as [(Nd & Od & _ & m0 & x' & _ & _ & X1 & X2 & X3 & _ & X5 & X6 & X7 & _ & X9 & X10 & Lo)|(Hd & old & x' & X1 & X2 & X3 & X4 & X5 & X6 & X7 & X8 & Lo)].
  - assert (Tbm : to_be_made e l md a).
    { destruct St as [[St _]|(old & ((O1 & O2) & _) & _)]; [exact St|]. exfalso. unfold no_data in Nd. rewrite Cm, O2 in Nd. discriminate Nd. }
    destruct Tbm as (Uu & Co & Cr & Cm607).
    assert (Hp : l2 payer = l0 payer) by (apply Lo; intro Q; [apply Nmd|apply Na]; symmetry; exact Q).
    assert (Lm : lamports l2 md = lamports l md + e_mpl_cost e) by (rewrite X9; unfold lamports; rewrite Cm; reflexivity).
    assert (La : l2 a = with_lamports (lamports l a - e_mpl_cost e) (l a)) by (rewrite X10; unfold lamports; rewrite Ca; reflexivity).
    exists (mkTx payer [TxTokenWrap ix] [payer]), l2, d, x'. split; [exact Cli|]. split.
    { assert (Ro : rents_ok e payer [TxTokenWrap ix] l0 l2 = true).
      { apply rents_ok_intro. intros k Kw. apply one_writes in Kw. destruct Kw as [-> |Kw]; [apply rent_ok_same; rewrite Hp; reflexivity|].
        apply sync_spl_writes in Kw. destruct Kw as [-> | ->].
        - apply rent_ok_enough. destruct X1 as [_ X1]. rewrite X1. cbn [data_len]. unfold lamports in Lm. rewrite Lm. exact Cm607.
        - destruct Cr as [Cr|Cr].
          + unfold rent_ok. rewrite La. cbn [with_lamports a_lamports a_data]. replace (lamports l a - e_mpl_cost e =? 0) with true by (symmetry; apply N.eqb_eq; lia). reflexivity.
          + apply rent_ok_enough. rewrite La. cbn [with_lamports a_lamports a_data]. rewrite Ua1. cbn [data_len length N.of_nat]. lia. }
      rewrite Ro in Snd. exact Snd. }
    split; [exact Cv|]. split; [exact X1|]. split; [exact X2|]. split; [exact X3|]. split; [exact X5|]. split.
    { unfold paid, lamports. rewrite Hp, E0. unfold charge. rewrite upd_same. cbn [with_lamports a_lamports a_data a_owner]. split; [lia|split; reflexivity]. }
    split.
    + intros _. split; [exact X6|]. split; [exact X7|]. split; [exact Lm|]. unfold lamports at 2. rewrite La. cbn [with_lamports a_lamports a_data a_owner].
      split; [lia|]. split; [reflexivity|]. split; [reflexivity|].
      intros k Hkn. rewrite Lo; [rewrite E0; apply charge_other| |]; intro Q; apply Hkn; [left|right; left|right; right; left]; symmetry; exact Q.
    + intros old ((O1 & O2) & _). exfalso. unfold no_data in Nd. rewrite Cm, O2 in Nd. discriminate Nd.
  - assert (Lm : lamports l2 md = lamports l md) by (rewrite X8; unfold lamports; rewrite Cm; reflexivity).
    assert (Hp : l2 payer = l0 payer) by (apply Lo; intro Q; apply Nmd; symmetry; exact Q).
    exists (mkTx payer [TxTokenWrap ix] [payer]), l2, d, x'. split; [exact Cli|]. split.
    { assert (Ro : rents_ok e payer [TxTokenWrap ix] l0 l2 = true).
      { apply rents_ok_intro. intros k Kw. apply one_writes in Kw. destruct Kw as [-> |Kw]; [apply rent_ok_same; rewrite Hp; reflexivity|].
        destruct (pk_dec k md) as [-> |Nk]; [|apply rent_ok_same; rewrite (Lo k Nk); reflexivity].
        apply rent_ok_same; [destruct X1 as [_ X1]; destruct X4 as [_ X4]; rewrite X1, X4; reflexivity|]. unfold lamports in X8. exact X8. }
      rewrite Ro in Snd. exact Snd. }
    split; [exact Cv|]. split; [exact X4|]. split; [exact X5|]. split; [exact X6|]. split; [destruct X7 as (_ & -> & _); exact X2|]. split.
    { unfold paid, lamports. rewrite Hp, E0. unfold charge. rewrite upd_same. cbn [with_lamports a_lamports a_data a_owner]. split; [lia|split; reflexivity]. }
    split.
    + intros [U1 _]. exfalso. destruct X1 as [_ X1]. rewrite Cm, U1 in X1. discriminate X1.
    + intros old' (O1 & _). assert (old' = old). { destruct O1 as [_ O1]. destruct X1 as [_ X1]. rewrite Cm, O1 in X1. injection X1 as ->. reflexivity. } subst old'.
      split; [exact X7|]. split; [exact Lm|]. intros k Hkn. rewrite Lo; [rewrite E0; apply charge_other|]; intro Q; apply Hkn; [left|right; left]; symmetry; exact Q.
Qed.

(** ** C47: if the arguments name the source of the metadata — they need not if the mint holds it itself — and Metaplex takes
    what it converts to, the command's transaction is accepted: afterwards the wrapped mint's Metaplex account, made if there was
    none and paid for by the mint's authority, shows the metadata, and nobody but the payer, the authority and that account changes. *)
Theorem C47_syncs : forall e0 e fee payer u source program l src,
  reachable e0 l -> same_curve e0 e -> let w := wrapped_mint_of e u spl_token_id in let a := authority_of e w in let md := metaplex_of e w in ~ unallocated l w ->
  sync_addresses_exist e u spl_token_id -> derivable e (metaplex_seeds w) mpl_id -> derivable e (metaplex_seeds u) mpl_id ->
  authentic_metadata e l u src -> spl_sync_asks e l u source program -> (forall m, mint_account l u t22_id m -> ~ pointer_of m (Some payer)) ->
  (forall k v, In (k, v) (tm_additional src) -> ~ malformed e k v) ->
  wallet l payer -> md <> payer -> fee + e_rent e 0 <= lamports l payer ->
  (to_be_made e l md a /\ (forall d, converted e src d -> metaplex_accepts e None d)) \/
  (exists old, ours l md a old /\ forall d, converted e src d -> metaplex_accepts e (mx_collection old) d) ->
  exists t l' d x', cli_sync_to_spl_token e payer u source program l = Ok t /\ accepted e fee t l l' /\
    converted e src d /\ metaplex_account l' md x' /\ shows x' d /\ no_verified_creator x' /\ mx_update_authority x' = a /\ paid l l' payer fee /\
    (unallocated l md -> mx_mint x' = w /\ mx_is_mutable x' = true /\ lamports l' md = lamports l md + e_mpl_cost e /\ lamports l a = lamports l' a + e_mpl_cost e /\
       a_data (l' a) = a_data (l a) /\ a_owner (l' a) = a_owner (l a) /\ only_changed l l' [payer; md; a]) /\
    (forall old, ours l md a old -> same_metaplex_frame old x' /\ lamports l' md = lamports l md /\ only_changed l l' [payer; md]).
Proof.
  intros e0 e fee payer u source program l src R C. cbv zeta. intros.
  exact (cli_sync_spl_aux e0 e fee payer u source program l src _ _ _ R C eq_refl eq_refl eq_refl ltac:(assumption) ltac:(assumption) ltac:(assumption) ltac:(assumption) ltac:(assumption) ltac:(assumption) ltac:(assumption) ltac:(assumption) ltac:(assumption) ltac:(assumption) ltac:(assumption) ltac:(assumption)).
Qed.
Print Assumptions C47_syncs.

(** ** The source is never found by itself *)
Lemma no_source_aux : forall e fee payer u program l h w a md,
  w = wrapped_mint_of e u spl_token_id -> a = authority_of e w -> md = metaplex_of e w -> a_owner (l w) = spl_token_id ->
  sync_addresses_exist e u spl_token_id -> derivable e (metaplex_seeds w) mpl_id -> metadata_home e l u (Some h) -> program = None ->
  wallet l payer -> fee + e_rent e 0 <= lamports l payer ->
  exists t l', cli_sync_to_spl_token e payer u None program l = Ok t /\ refused e fee t l l' ENotEnoughAccountKeys /\ paid l l' payer fee /\ only_changed l l' [payer].
Proof.
  intros e fee payer u program l h w a md Ew Ea Em Ow Ad D3 Hh Pn Wal Fee. subst program.
  pose proof (cli_sync_spl_eval e payer u None None l w a md Ew Ea Em Ad D3) as Cli.
  set (ix := build_sync_to_spl_token tw_id md a w u None None) in *. remember (charge payer fee l) as l0 eqn:E0.
  set (acc := raised e payer [TxTokenWrap ix] (tx_metas ix)).
  assert (Hk : map i_key acc = [md; a; w; u; mpl_id; system_id; rent_sysvar_id]) by (unfold acc; rewrite raised_keys; reflexivity).
  assert (K7 : keys_are acc [md; a; w; u; mpl_id; system_id; rent_sysvar_id]) by (exists []; exact Hk).
  assert (F : fails e acc SyncMetadataToSplToken l0 ENotEnoughAccountKeys).
  { apply (C26_refused_spl e acc l0 md w a u _ _ _ K7 Ad D3 Ew Ea Em); [rewrite E0, (proj2 (charge_same payer fee l w)); exact Ow|].
    rewrite Hk. cbn [nth_error]. rewrite E0. apply (charge_home e payer fee l u (Some h)) in Hh.
    inversion Hh as [O|m M P| |m k M P N]; [apply se_spl; [exact O|apply mse_missing]|apply (se_plain e _ u m); [exact M|exact P|apply mse_missing]|apply (se_missing e _ u m h); [exact M|exact P|exact N]]. }
  exists (mkTx payer [TxTokenWrap ix] [payer]), l0. split; [exact Cli|]. split.
  - unfold refused. rewrite (one_sends e fee payer ix SyncMetadataToSplToken l l0 (sync_spl_unsigned tw_id md a w u None None) eq_refl eq_refl Wal Fee E0).
    fold acc. unfold fails in F. rewrite F. reflexivity.
  - rewrite E0. apply charge_paid. unfold lamports in Fee. lia.
Qed.
(** ... and (a finding): unlike sync-metadata-to-token-2022 the command does not look for the source. If the metadata is anywhere
    but on the mint — in its Metaplex account, say — and no source is named, what it sends is refused, at the price of the fee. *)
Theorem C47_no_source : forall e fee payer u l h,
  let w := wrapped_mint_of e u spl_token_id in a_owner (l w) = spl_token_id ->
  sync_addresses_exist e u spl_token_id -> derivable e (metaplex_seeds w) mpl_id -> metadata_home e l u (Some h) ->
  wallet l payer -> fee + e_rent e 0 <= lamports l payer ->
  exists t l', cli_sync_to_spl_token e payer u None None l = Ok t /\ refused e fee t l l' ENotEnoughAccountKeys /\ paid l l' payer fee /\ only_changed l l' [payer].
Proof.
  intros e fee payer u l h. cbv zeta. intros. exact (no_source_aux e fee payer u None l h _ _ _ eq_refl eq_refl eq_refl ltac:(assumption) ltac:(assumption) ltac:(assumption) ltac:(assumption) eq_refl ltac:(assumption) ltac:(assumption)).
Qed.
Print Assumptions C47_no_source.

(** A Token-2022 mint with its own metadata, wrapped to SPL Token by the command's usual path; its authority can pay for the
    Metaplex account, Bob calls. *)
Definition d_md : pubkey := metaplex_of demo_env (d_w spl_token_id).
Definition cli_spl_md : list cmd :=
  CFund d_bob 1000 :: CFund d_md 6000 :: CFund (d_a spl_token_id) 100 :: CFund (d_w spl_token_id) 9000 :: CFund (d_b spl_token_id) 4000 ::
  [ CAlloc d_u (mint_space [md_ptr]) 90000 t22_id;
    CTok t22_id [meta_w d_u false] (TiInitExt md_ptr);
    CTok t22_id [meta_w d_u false] (TiInitializeMint2 6 d_mintauth None);
    CTok t22_id [meta_w d_u false; meta_r d_mintauth false; meta_r d_u false; meta_r d_mintauth true] (TiMdInitialize "Coin" "C" "uri");
    CTok t22_id [meta_w d_u false; meta_r d_mintauth true] (TiMdUpdateField (FKey "seller_fee_basis_points") "250");
    CTw x_create ].
Example C47_example : exists t l' x', cli_sync_to_spl_token demo_env d_bob d_u None None (now_of cli_spl_md) = Ok t /\
  accepted demo_env 5 t (now_of cli_spl_md) l' /\ metaplex_account l' d_md x' /\ padded 32 "Coin" (mx_name x') /\ mx_sfbp x' = 250 /\ mx_mint x' = d_w spl_token_id /\ lamports l' (d_a spl_token_id) = 0.
Proof.
  assert (M : exists mu, a_data (now_of cli_spl_md d_u) = DMint mu /\ a_owner (now_of cli_spl_md d_u) = t22_id) by (eexists; split; vm_compute; reflexivity).
  destruct M as [mu [Hm Ho]].
  assert (X : m_init mu = true /\ ext_pointer mu = Some (Some d_mintauth, Some d_u) /\ exists t, own_metadata mu t /\ tm_name t = "Coin"%string /\ tm_additional t = [("seller_fee_basis_points", "250")]%string).
  { clear Ho. revert Hm; vm_compute; intro X; inversion X; subst mu; (split; [reflexivity|split; [reflexivity|eexists; split; [reflexivity|split; reflexivity]]]). }
  destruct X as (X1 & Pu & src & Ou & Nm & Fl). assert (Mu : mint_account (now_of cli_spl_md) d_u t22_id mu) by (split; [exact Ho|split; [exact Hm|exact X1]]).
  assert (N2 : numeral_u16 "250"%string 250) by (apply parse_u16_numeral; vm_compute; reflexivity).
  destruct (C47_syncs demo_env demo_env 5 d_bob d_u None None (now_of cli_spl_md) src) as (t & l' & d & x' & H1 & Acc & Cv & Mx & Sh & _ & _ & _ & New & _).
  - eexists. apply played_history. vm_compute. reflexivity.
  - apply same_curve_refl.
  - intros [X _]; vm_compute in X; discriminate X.
  - split; apply demo_derivable.
  - apply demo_derivable.
  - apply demo_derivable.
  - apply (am_self demo_env _ d_u mu src Mu); [exists (Some d_mintauth); exact Pu|exact Ou].
  - intros k H. exfalso. inversion H as [O|m' M' P'| |m' k' M' P' N]; subst.
    + rewrite O in Ho. discriminate Ho.
    + rewrite (mint_fun _ _ _ _ _ _ M' Mu) in P'. unfold no_pointer in P'. rewrite Pu in P'. discriminate P'.
    + rewrite (mint_fun _ _ _ _ _ _ M' Mu) in P'. destruct P' as [x P']. rewrite Pu in P'. injection P' as _ P'. exact (N (eq_sym P')).
  - intros m M [x P]. rewrite (mint_fun _ _ _ _ _ _ M Mu), Pu in P. discriminate P.
  - intros k v Hin. rewrite Fl in Hin. destruct Hin as [Hin|[]]. injection Hin as <- <-. intros [[Q _]|[[_ Q]|[[Q _]|[Q _]]]]; try discriminate Q. exact (Q 250 N2).
  - vm_compute. repeat split; reflexivity.
  - vm_compute. discriminate.
  - vm_compute. discriminate.
  - left. split.
    + split; [split; vm_compute; reflexivity|]. split; [vm_compute; discriminate|]. split; [left; vm_compute; reflexivity|vm_compute; discriminate].
    + intros d (_ & _ & _ & _ & _ & _ & _ & Hc & _). split; [reflexivity|]. intros c Q. rewrite Hc in Q; [discriminate Q|]. rewrite Fl. intros [W|[]]. discriminate W.
  - exists t, l', x'. split; [exact H1|]. split; [exact Acc|]. split; [exact Mx|].
    destruct New as (Mm & _ & _ & La & _); [split; vm_compute; reflexivity|].
    destruct Cv as (Dn & _ & _ & _ & Ds & _). destruct Sh as (Sn & _ & _ & Ss & _).
    split; [rewrite <- Nm, <- Dn; exact Sn|]. split.
    { rewrite Ss. assert (F : field_value (tm_additional src) "seller_fee_basis_points" "250") by (rewrite Fl; exists [], []; split; [reflexivity|intros []]).
      specialize (Ds _ F). apply parse_u16_numeral in Ds. vm_compute in Ds. injection Ds as Ds. symmetry. exact Ds. }
    split; [exact Mm|]. assert (L1 : lamports (now_of cli_spl_md) (d_a spl_token_id) = 100) by (vm_compute; reflexivity).
    change (lamports (now_of cli_spl_md) (d_a spl_token_id) = lamports l' (d_a spl_token_id) + 100) in La. rewrite L1 in La. lia.
Qed.
Print Assumptions C47_example.
(** An SPL Token mint: its Metaplex account must be named. *)
Definition cli_spl_plain : list cmd :=
  [ CFund d_bob 1000; CFund (d_w spl_token_id) 9000; CFund (d_b spl_token_id) 4000; CAlloc d_u 82 90000 spl_token_id;
    CTok spl_token_id [meta_w d_u false] (TiInitializeMint2 6 d_mintauth None); CTw x_create ].
Example C47_no_source_example : exists t l', cli_sync_to_spl_token demo_env d_bob d_u None None (now_of cli_spl_plain) = Ok t /\
  refused demo_env 5 t (now_of cli_spl_plain) l' ENotEnoughAccountKeys /\ paid (now_of cli_spl_plain) l' d_bob 5 /\ only_changed (now_of cli_spl_plain) l' [d_bob].
Proof.
  apply (C47_no_source demo_env 5 d_bob d_u (now_of cli_spl_plain) (metaplex_of demo_env d_u)).
  - vm_compute. reflexivity.
  - split; apply demo_derivable.
  - apply demo_derivable.
  - apply home_spl. vm_compute. reflexivity.
  - vm_compute. repeat split; reflexivity.
  - vm_compute. discriminate.
Qed.
Print Assumptions C47_no_source_example.
