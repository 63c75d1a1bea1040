(** * PropCliSync.v — C46: the sync-metadata-to-token2022 command. *)
From Verif Require Import Base Codec State Pda TokenProg Cpi Ata Meta Processor Builders Cli Tac PdaProofs TokProofs ProcProofs Spec HistorySpec CliSpec CloseProofs SpecLemmas
  InvState InvHist SyncProofs2 PropSync PropReach PropReach2 CliProofs CliSign CliCreate CodecProofs PropCreate PropCli PropCliEscrow PropCliWrap PropCliUnwrap PropCliClose Demo Demo2 DemoHist.

(** ** Sources that are in order *)
Lemma pointer_fun m x y : pointer_of m x -> pointer_of m y -> x = y.
Proof. intros [a E] [b F]. rewrite E in F. injection F as _ F. exact F. Qed.
Lemma pointer_none m x : pointer_of m x -> no_pointer m -> False.
Proof. intros [a E] F. unfold no_pointer in F. rewrite E in F. discriminate F. Qed.
Lemma mint_fun l u p p' m m' : mint_account l u p m -> mint_account l u p' m' -> m = m'.
Proof. intros (_ & D & _) (_ & D' & _). rewrite D in D'. injection D' as E. exact E. Qed.
Lemma spl_not_t22 l u m : a_owner (l u) = spl_token_id -> mint_account l u t22_id m -> False.
Proof. intros O (O' & _). rewrite O in O'. discriminate O'. Qed.
Lemma metaplex_fine e l u s x err :
  metaplex_account l (metaplex_of e u) x -> derivable e (metaplex_seeds u) mpl_id -> s = Some (metaplex_of e u) -> metaplex_source_error e l u s err -> False.
Proof.
  intros [O D] De Es H. destruct H as [|k No|k Ok Nd|k Ok Dk Nk|_ Ok Nx].
  - discriminate Es.
  - injection Es as ->. exact (No O).
  - exact (Nd De).
  - injection Es as ->. exact (Nk eq_refl).
  - exact (Nx x D).
Qed.
Lemma no_source_error e l u t s o err :
  authentic_metadata e l u t -> derivable e (metaplex_seeds u) mpl_id ->
  (forall k, metadata_home e l u (Some k) -> s = Some k /\ (a_owner (l k) <> mpl_id -> o = Some (a_owner (l k)))) ->
  ~ source_error e l u s o err.
Proof.
  intros A De Hh H.
  assert (Mi : forall m, mint_account l u t22_id m -> ~ exists err, unreadable_mint (a_data (l u)) err).
  { intros m (_ & D & I) [er Q]. rewrite D in Q. inversion Q as [m0 F|? ? ? F|? F|d N1 N2]; [subst|subst]; [rewrite I in F; discriminate F|]. exact (N1 m eq_refl). }
  assert (To : a_owner (l u) = spl_token_id \/ exists m, mint_account l u t22_id m).
  { destruct A as [x O X|m x M P X|m t M P X|m a x M P N X|m a prog t M P N O T Mp Em]; [left; exact O|right; exists m; exact M..]. }
  inversion H as [s' o' N1 N2|s' o' er O Q|m s' o' er M P Q|m s' o' M P|m s' o' M P Q|m a o' M P N|m a k o' M P N Nk|m a o' M P N O|m a o' M P N O Q|m a M P N O1 O2|m a p M P N O1 O2 Np|m a er M P N O1 O2 Em|s' o' er O Q]; subst.
  - destruct To as [To|[m (To & _)]]; [exact (N1 To)|exact (N2 To)].
  - destruct A as [x O' X|m x M P X|m t M P X|m a x M P N X|m a prog t M P N O' T Mp Em]; [|exact (spl_not_t22 l u m O M)..].
    destruct (Hh _ (home_spl e l u O)) as [-> _]. exact (metaplex_fine e l u _ x err X De eq_refl Q).
  - destruct A as [x O' X|m' x M' P' X|m' t M' P' X|m' a x M' P' N X|m' a prog t M' P' N O' T Mp Em]; [exact (spl_not_t22 l u m O' M)|..];
      rewrite (mint_fun l u _ _ _ _ M' M) in *; [|exact (pointer_none m _ P' P)..].
    destruct (Hh _ (home_plain e l u m M P)) as [-> _]. exact (metaplex_fine e l u _ x err X De eq_refl Q).
  - destruct A as [x O' X|m' x M' P' X|m' t M' P' X|m' a x M' P' N X|m' a prog t M' P' N O' T Mp Em]; [exact (spl_not_t22 l u m O' M)|..];
      rewrite (mint_fun l u _ _ _ _ M' M) in *; [exact (pointer_none m _ P P')|discriminate (pointer_fun m _ _ P P')..].
  - destruct A as [x O' X|m' x M' P' X|m' t M' P' X|m' a x M' P' N X|m' a prog t M' P' N O' T Mp Em]; [exact (spl_not_t22 l u m O' M)|..];
      rewrite (mint_fun l u _ _ _ _ M' M) in *; [exact (pointer_none m _ P P')|exact (Q t X)|..];
      pose proof (pointer_fun m _ _ P P') as E; injection E as E; exact (N (eq_sym E)).
  - destruct (Hh _ (home_pointer e l u m a M P N)) as [E _]. discriminate E.
  - destruct (Hh _ (home_pointer e l u m a M P N)) as [E _]. injection E as E. exact (Nk E).
  - destruct A as [x O' X|m' x M' P' X|m' t M' P' X|m' a' x M' P' N' X|m' a' prog t M' P' N' O' T Mp Em]; [exact (spl_not_t22 l u m O' M)|..];
      rewrite (mint_fun l u _ _ _ _ M' M) in *; [exact (pointer_none m _ P P')|..];
      pose proof (pointer_fun m _ _ P P') as E; injection E as E; subst; [exact (N eq_refl)| |].
    + destruct X as [X _]. rewrite O in X. discriminate X.
    + exact (T O).
  - destruct A as [x O' X|m' x M' P' X|m' t M' P' X|m' a' x M' P' N' X|m' a' prog t M' P' N' O' T Mp Em]; [exact (spl_not_t22 l u m O' M)|..];
      rewrite (mint_fun l u _ _ _ _ M' M) in *; [exact (pointer_none m _ P P')|..];
      pose proof (pointer_fun m _ _ P P') as E; injection E as E; subst; [exact (N eq_refl)| |].
    + destruct X as [_ X]. exact (Q x X).
    + exact (Mp O).
  - destruct (Hh _ (home_pointer e l u m a M P N)) as [_ E]. discriminate (E O2).
  - destruct (Hh _ (home_pointer e l u m a M P N)) as [_ E]. specialize (E O2). injection E as E. exact (Np E).
  - destruct A as [x O' X|m' x M' P' X|m' t M' P' X|m' a' x M' P' N' X|m' a' prog t M' P' N' O' T Mp Em']; [exact (spl_not_t22 l u m O' M)|..];
      rewrite (mint_fun l u _ _ _ _ M' M) in *; [exact (pointer_none m _ P P')|..];
      pose proof (pointer_fun m _ _ P P') as E; injection E as E; subst; [exact (N eq_refl)| |].
    + destruct X as [X _]. exact (O2 X).
    + destruct Em as [Em|[Em|[[Em|(p & r & Em & Np)] _]]]; rewrite Em' in Em; try discriminate Em. injection Em as <- _. exact (Np eq_refl).
  - destruct To as [To|[m M]]; [rewrite To in O; discriminate O|]. apply (Mi m M). exists err. exact Q.
Qed.

(** ** The charged ledger *)
Lemma charge_home e payer fee l u h : metadata_home e l u h <-> metadata_home e (charge payer fee l) u h.
Proof.
  split; intro H.
  - destruct H as [O|m M P|m M P|m k M P N].
    + apply home_spl. rewrite (proj2 (charge_same payer fee l u)). exact O.
    + apply (home_plain e _ u m); [apply charge_mint; exact M|exact P].
    + apply (home_self e _ u m); [apply charge_mint; exact M|exact P].
    + apply (home_pointer e _ u m k); [apply charge_mint; exact M|exact P|exact N].
  - destruct H as [O|m M P|m M P|m k M P N].
    + apply home_spl. rewrite (proj2 (charge_same payer fee l u)) in O. exact O.
    + apply (home_plain e _ u m); [apply (charge_mint_inv payer fee); exact M|exact P].
    + apply (home_self e _ u m); [apply (charge_mint_inv payer fee); exact M|exact P].
    + apply (home_pointer e _ u m k); [apply (charge_mint_inv payer fee); exact M|exact P|exact N].
Qed.
Lemma charge_metaplex payer fee l k x : metaplex_account l k x -> metaplex_account (charge payer fee l) k x.
Proof. intros [O D]. unfold metaplex_account. destruct (charge_same payer fee l k) as [-> ->]. split; [exact O|exact D]. Qed.
Lemma charge_authentic e payer fee l u t :
  (forall m, mint_account l u t22_id m -> ~ pointer_of m (Some payer)) ->
  authentic_metadata e l u t -> authentic_metadata e (charge payer fee l) u t.
Proof.
  intros Np A. destruct A as [x O X|m x M P X|m t M P X|m a x M P N X|m a prog t M P N O T Mp Em].
  - apply am_spl; [rewrite (proj2 (charge_same payer fee l u)); exact O|apply charge_metaplex; exact X].
  - apply (am_t22_plain e _ u m); [apply charge_mint; exact M|exact P|apply charge_metaplex; exact X].
  - apply (am_self e _ u m); [apply charge_mint; exact M|exact P|exact X].
  - apply (am_metaplex e _ u m a); [apply charge_mint; exact M|exact P|exact N|apply charge_metaplex; exact X].
  - assert (Ne : a <> payer) by (intros ->; exact (Np m M P)).
    apply (am_foreign e _ u m a prog); [apply charge_mint; exact M|exact P|exact N|rewrite (charge_other payer fee l a Ne); exact O|exact T|exact Mp|rewrite (charge_other payer fee l a Ne); exact Em].
Qed.

(** ** The command *)
Lemma home_exists e l u t : authentic_metadata e l u t -> exists h, metadata_home e l u h.
Proof.
  intros A. destruct A as [x O X|m x M P X|m t M P X|m a x M P N X|m a prog t M P N O T Mp Em]; eexists.
  - apply home_spl. exact O.
  - exact (home_plain e l u m M P).
  - exact (home_self e l u m M P).
  - exact (home_pointer e l u m a M P N).
  - exact (home_pointer e l u m a M P N).
Qed.
Lemma resolve_ok e l u h : metadata_home e l u h -> 0 < lamports l u -> derivable e (metaplex_seeds u) mpl_id -> resolve_source_metadata e u l = Ok h.
Proof.
  intros H L D. unfold resolve_source_metadata, get_account. unfold lamports in L. replace (a_lamports (l u) =? 0) with false by (symmetry; apply N.eqb_neq; lia). cbn [bind].
  unfold metaplex_find_pda. rewrite (findable_get e _ _ D). cbn [bind fst].
  destruct H as [O|m (O & Dm & I) P|m (O & Dm & I) [x P]|m k (O & Dm & I) [x P] N]; rewrite O; [reflexivity|..]; change (pk_eqb t22_id spl_token_id) with false; change (pk_eqb t22_id t22_id) with true; cbv iota;
    rewrite Dm, (pod_unpack_mint_ok m I); cbn [bind]; rewrite P; [reflexivity|rewrite pk_eqb_refl; reflexivity|].
  rewrite (proj2 (pk_eqb_neq k u) N). reflexivity.
Qed.
Lemma cli_sync_eval e payer u source program l w a t :
  authentic_metadata e l u t -> sync_asks e l u source program -> 0 < lamports l u -> derivable e (metaplex_seeds u) mpl_id ->
  w = wrapped_mint_of e u t22_id -> a = authority_of e w -> sync_addresses_exist e u t22_id ->
  exists s, cli_sync_to_token_2022 e payer u source program l = Ok (mkTx payer [TxTokenWrap (build_sync_to_token_2022 tw_id w a u s program)] [payer]) /\
    forall k, metadata_home e l u (Some k) -> s = Some k /\ (a_owner (l k) <> mpl_id -> program = Some (a_owner (l k))).
Proof.
  intros A Ask L D Ew Ea (D1 & D2). unfold cli_sync_to_token_2022. rewrite (get_w_ok e u t22_id D1), <- Ew. cbn [bind]. rewrite Ew in Ea |- *. rewrite (get_a_ok e _ D2), <- Ea. cbn [bind].
  destruct source as [k0|]; cbn [bind].
  - exists (Some k0). split; [reflexivity|]. intros k Hk. destruct (Ask k Hk) as [[Q|Q] Q2]; [discriminate Q|]. split; [exact Q|exact Q2].
  - destruct (home_exists e l u t A) as [h Hh]. pose proof (resolve_ok e l u h Hh L D) as Rh. rewrite Rh. cbn [bind]. exists h. split; [reflexivity|].
    intros k Hk. pose proof (resolve_ok e l u (Some k) Hk L D) as Rk. rewrite Rh in Rk. injection Rk as ->. split; [reflexivity|]. exact (proj2 (Ask k Hk)).
Qed.
Lemma sync_unsigned prog w a u s o k : ~ signed (tx_metas (build_sync_to_token_2022 prog w a u s o)) k.
Proof.
  intros (m & Hm & _ & Hs). cbn [tx_metas build_sync_to_token_2022 app] in Hm. destruct Hm as [<-|[<-|[<-|[<-|Hm]]]]; try discriminate Hs.
  apply in_app_or in Hm. destruct Hm as [Hm|Hm]; [destruct s|destruct o]; try contradiction Hm; destruct Hm as [<-|[]]; discriminate Hs.
Qed.
Lemma sync_writes prog w a u s o k : writable (tx_metas (build_sync_to_token_2022 prog w a u s o)) k -> k = w.
Proof.
  intros (m & Hm & Hk & Hs). cbn [tx_metas build_sync_to_token_2022 app] in Hm. destruct Hm as [<-|[<-|[<-|[<-|Hm]]]]; try discriminate Hs; [symmetry; exact Hk|].
  apply in_app_or in Hm. destruct Hm as [Hm|Hm]; [destruct s|destruct o]; try contradiction Hm; destruct Hm as [<-|[]]; discriminate Hs.
Qed.
Lemma rents_bad e payer ixs l l' k : may_write e payer ixs k = true -> In k (all_keys e payer ixs) -> rent_ok e (l k) (l' k) = false -> rents_ok e payer ixs l l' = false.
Proof.
  intros W I R. unfold rents_ok. destruct (forallb _ _) eqn:F; [|reflexivity]. rewrite forallb_forall in F. specialize (F k I). cbv beta in F. rewrite W, R in F. discriminate F.
Qed.

Lemma cli_sync_aux : forall e0 e fee payer u source program l src w a,
  reachable e0 l -> same_curve e0 e -> w = wrapped_mint_of e u t22_id -> a = authority_of e w -> ~ unallocated l w ->
  sync_addresses_exist e u t22_id -> derivable e (metaplex_seeds u) mpl_id -> 0 < lamports l u -> (forall x y, e_realloc_ok e x y = true) ->
  authentic_metadata e l u src -> sync_asks e l u source program -> (forall m, mint_account l u t22_id m -> ~ pointer_of m (Some payer)) ->
  wallet l payer -> fee + e_rent e 0 <= lamports l payer ->
  exists t m m' t', cli_sync_to_token_2022 e payer u source program l = Ok t /\
    mint_account l w t22_id m /\ same_core m m' /\ tight m' /\ own_metadata m' t' /\ copied src t' /\
    (m_len m' = m_len m \/ e_rent e (m_len m') <= lamports l w ->
       exists l', accepted e fee t l l' /\ l' w = mkAcc (lamports l w) (DMint m') t22_id /\ paid l l' payer fee /\ only_changed l l' [payer; w]) /\
    (m_len m' <> m_len m -> 0 < lamports l w -> lamports l w < e_rent e (m_len m') ->
       exists l', refused e fee t l l' EAccountNotRentExempt /\ paid l l' payer fee /\ only_changed l l' [payer]).
Proof.
  intros e0 e fee payer u source program l src w a R C Ew Ea Nu Ad Dm Lu Re A Ask Npp Wal Fee.
  destruct (cli_sync_eval e payer u source program l w a src A Ask Lu Dm Ew Ea Ad) as (s & Cli & Hs).
  set (ix := build_sync_to_token_2022 tw_id w a u s program) in *.
  pose proof Wal as (Wo & Wd & Wt & _). remember (charge payer fee l) as l0 eqn:E0.
  assert (R0 : reachable e0 l0) by (rewrite E0; apply charge_reachable; assumption).
  assert (Nw : w <> payer). { intros Q. rewrite <- Q, Ew, is_tw_pda_wrapped in Wt. discriminate Wt. }
  assert (Cw : l0 w = l w) by (rewrite E0; apply charge_other; exact Nw).
  set (acc := raised e payer [TxTokenWrap ix] (tx_metas ix)).
  assert (Hk : map i_key acc = [w; a; u; t22_id] ++ map i_key (opt_meta s ++ opt_meta program)) by (unfold acc; rewrite raised_keys; reflexivity).
  assert (K4 : keys_are acc [w; a; u; t22_id]) by (eexists; exact Hk).
  assert (Ww : writable (tx_metas ix) w) by (exists (meta_w w false); split; [left; reflexivity|split; reflexivity]).
  assert (Wr : writable acc w) by (apply raised_writable; [left; reflexivity|exact Ww]).
  assert (Nu0 : ~ unallocated l0 w) by (unfold unallocated; rewrite Cw; exact Nu).
  assert (A0 : authentic_metadata e l0 u src) by (rewrite E0; apply charge_authentic; [exact Npp|exact A]).
  assert (Se : forall err, ~ source_error e l0 u (nth_error (map i_key acc) 4) (nth_error (map i_key acc) 5) err).
  { intro err. apply (no_source_error e l0 u src); [exact A0|exact Dm|]. intros k Hkk. rewrite E0 in Hkk. apply charge_home in Hkk. destruct (Hs k Hkk) as [Es Ep]. rewrite Hk, Es.
    split; [reflexivity|]. intro O. rewrite E0 in O |- *. rewrite (proj2 (charge_same payer fee l k)) in O |- *. rewrite (Ep O). reflexivity. }
  destruct (sync_live_aux e0 e acc l0 w a u R0 C K4 Ad Ew Ea Wr Nu0 Re Se) as [l2 H2].
  destruct (C24_sync_copies_reachable e0 e acc l0 l2 w a u t22_id R0 C K4 H2) as (_ & _ & src' & m1 & t' & A1 & M1 & T1 & S1 & S2 & S3 & S4 & _).
  rewrite (authentic_fun e l0 u src' src A1 A0) in *.
  destruct (C25_confined_reachable e0 e acc l0 l2 w a u t22_id R0 C K4 H2) as ((m & m' & M & M' & Sc & Ti) & Lw & Lo).
  rewrite (mint_fun l2 w _ _ _ _ M1 M') in *. clear M1 m1.
  assert (Mm : mint_account l w t22_id m) by (unfold mint_account, mint_data in M |- *; rewrite Cw in M; exact M).
  assert (Lw2 : l2 w = mkAcc (lamports l w) (DMint m') t22_id).
  { destruct M' as (O & D & _). unfold lamports in Lw |- *. rewrite Cw in Lw. destruct (l2 w) as [x y z]. cbn [a_lamports a_data a_owner] in *. subst. reflexivity. }
  assert (Hp : l2 payer = l0 payer) by (apply Lo; intro Q; apply Nw; symmetry; exact Q).
  assert (Fp : fee <= a_lamports (l payer)) by (unfold lamports in Fee; lia).
  assert (Dw : a_data (l0 w) = DMint m) by (destruct M as (_ & D & _); exact D).
  pose proof (one_sends e fee payer ix SyncMetadataToToken2022 l l0 (sync_unsigned tw_id w a u s program) eq_refl eq_refl Wal Fee E0) as Snd.
  fold acc in Snd. unfold succeeds in H2. rewrite H2 in Snd.
  exists (mkTx payer [TxTokenWrap ix] [payer]), m, m', t'. split; [exact Cli|]. split; [exact Mm|]. split; [exact Sc|]. split; [exact Ti|]. split; [exact T1|].
  split; [exact (conj S1 (conj S2 (conj S3 S4)))|]. split.
  - intro Cond. exists l2.
    assert (Ro : rents_ok e payer [TxTokenWrap ix] l0 l2 = true).
    { apply rents_ok_intro. intros k Kw. apply one_writes in Kw. destruct Kw as [-> |Kw]; [apply rent_ok_same; rewrite Hp; reflexivity|].
      apply sync_writes in Kw. subst k. destruct Cond as [Cond|Cond].
      - apply rent_ok_same; rewrite Lw2; [rewrite Dw; exact Cond|]. unfold lamports. rewrite Cw. reflexivity.
      - apply rent_ok_enough. rewrite Lw2. exact Cond. }
    rewrite Ro in Snd. split; [exact Snd|]. split; [exact Lw2|]. split.
    + unfold paid, lamports. rewrite Hp, E0. unfold charge. rewrite upd_same. cbn [with_lamports a_lamports a_data a_owner]. split; [lia|split; reflexivity].
    + intros k Hkn. rewrite Lo; [rewrite E0; apply charge_other|]; intro Q; apply Hkn; [left|right; left]; symmetry; exact Q.
  - intros Nl Pl Lt. exists l0.
    assert (Ro : rents_ok e payer [TxTokenWrap ix] l0 l2 = false).
    { apply (rents_bad e payer [TxTokenWrap ix] l0 l2 w); [apply one_writes; right; exact Ww|right; apply in_or_app; left; left; reflexivity|].
      unfold rent_ok. rewrite Lw2. cbn [a_data a_lamports]. rewrite Dw. cbn [data_len].
      replace (lamports l w =? 0) with false by (symmetry; apply N.eqb_neq; lia). replace (e_rent e (m_len m') <=? lamports l w) with false by (symmetry; apply N.leb_gt; exact Lt).
      replace (m_len m =? m_len m') with false by (symmetry; apply N.eqb_neq; intro Q; apply Nl; symmetry; exact Q). rewrite !andb_false_r. reflexivity. }
    rewrite Ro in Snd. split; [exact Snd|]. rewrite E0. apply charge_paid. exact Fp.
Qed.
(** ** C46.  sync-metadata-to-token2022: in every reachable state in which the wrapped mint exists and the mint has
    authentic metadata [src], the command — source given or left for it to find; a third program named — sends a
    transaction that would leave the wrapped mint with metadata showing exactly [src], and everything else on it as it
    was.  It is accepted if the wrapped mint keeps its size or has the rent for its new size, and then nothing else changes
    but the payer's network fee; otherwise the transaction is refused for rent, and costs the network fee. *)
Theorem C46_syncs : forall e0 e fee payer u source program l src,
  reachable e0 l -> same_curve e0 e -> let w := wrapped_mint_of e u t22_id in ~ unallocated l w ->
  sync_addresses_exist e u t22_id -> derivable e (metaplex_seeds u) mpl_id -> 0 < lamports l u -> (forall x y, e_realloc_ok e x y = true) ->
  authentic_metadata e l u src -> sync_asks e l u source program -> (forall m, mint_account l u t22_id m -> ~ pointer_of m (Some payer)) ->
  wallet l payer -> fee + e_rent e 0 <= lamports l payer ->
  exists t m m' t', cli_sync_to_token_2022 e payer u source program l = Ok t /\
    mint_account l w t22_id m /\ same_core m m' /\ tight m' /\ own_metadata m' t' /\ copied src t' /\
    (m_len m' = m_len m \/ e_rent e (m_len m') <= lamports l w ->
       exists l', accepted e fee t l l' /\ l' w = mkAcc (lamports l w) (DMint m') t22_id /\ paid l l' payer fee /\ only_changed l l' [payer; w]) /\
    (m_len m' <> m_len m -> 0 < lamports l w -> lamports l w < e_rent e (m_len m') ->
       exists l', refused e fee t l l' EAccountNotRentExempt /\ paid l l' payer fee /\ only_changed l l' [payer]).
Proof.
  intros e0 e fee payer u source program l src R C w Nu Ad Dm Lu Re A Ask Npp Wal Fee.
  exact (cli_sync_aux e0 e fee payer u source program l src w (authority_of e w) R C eq_refl eq_refl Nu Ad Dm Lu Re A Ask Npp Wal Fee).
Qed.
Print Assumptions C46_syncs.

(** ** The first sync *)
Lemma tlv_filter (f : mint_ext -> bool) x : tlv_total (map mint_ext_len (filter f x)) <= tlv_total (map mint_ext_len x).
Proof. induction x as [|y r IH]; [apply N.le_refl|]. cbn [filter]. destruct (f y); cbn [map tlv_total fold_right] in *; unfold tlv_total in *; lia. Qed.
Lemma tlv_more (f : mint_ext -> bool) x y : In y x -> f y = false -> 4 + tlv_total (map mint_ext_len (filter f x)) <= tlv_total (map mint_ext_len x).
Proof.
  induction x as [|z r IH]; [intros []|]. intros [-> |H] Fy.
  - cbn [filter]. rewrite Fy. pose proof (tlv_filter f r) as Q. cbn [map tlv_total fold_right]. unfold tlv_total in *. lia.
  - specialize (IH H Fy). cbn [filter]. destruct (f z); cbn [map tlv_total fold_right] in *; unfold tlv_total in *; lia.
Qed.
Lemma find_map_in {A B} (f : A -> option B) x y : find_map f x = Some y -> exists z, In z x /\ f z = Some y.
Proof.
  induction x as [|z r IH]; cbn [find_map]; [discriminate|]. destruct (f z) eqn:E; intro H.
  - injection H as ->. exists z. split; [left; reflexivity|exact E].
  - destruct (IH H) as (z' & I & F). exists z'. split; [right; exact I|exact F].
Qed.
Lemma find_map_none {A B} (f : A -> option B) x z : find_map f x = None -> In z x -> f z = None.
Proof. induction x as [|y r IH]; cbn [find_map]; [intros _ []|]. destruct (f y) eqn:E; [discriminate|]. intros H [-> |I]; [exact E|exact (IH H I)]. Qed.
Lemma metadata_grows w a m m' t : wrapped_exts t22_id w a (m_exts m) -> same_core m m' -> tight m -> tight m' -> ext_metadata m = None -> own_metadata m' t -> m_len m < m_len m'.
Proof.
  intros X (_ & _ & _ & _ & O) Ti Ti' N H. unfold tight in *. rewrite Ti, Ti'.
  assert (E : other_extensions m = m_exts m).
  { unfold other_extensions. unfold ext_metadata in N. destruct X as [[(Q & _)|(_ & E)]|(_ & t0 & E & _)]; [discriminate Q| |]; rewrite E in N |- *; [reflexivity|discriminate N]. }
  assert (Ne : m_exts m <> []) by (destruct X as [[(Q & _)|(_ & E')]|(_ & t0 & E' & _)]; [discriminate Q| |]; rewrite E'; discriminate).
  rewrite E in O. unfold own_metadata, ext_metadata in H. destruct (find_map_in _ _ _ H) as (z & Iz & Fz).
  assert (Kz : negb (mint_ext_kind z =? 19) = false) by (destruct z; try discriminate Fz; reflexivity).
  pose proof (tlv_more (fun x => negb (mint_ext_kind x =? 19)) (m_exts m') z Iz Kz) as Q. change (filter _ (m_exts m')) with (other_extensions m') in Q. rewrite O in Q.
  unfold mint_space. destruct (m_exts m) as [|y r]; [contradiction (Ne eq_refl)|]. destruct (m_exts m') as [|y' r']; [contradiction Iz|].
  unfold adjust_multisig. destruct (_ =? multisig_len) eqn:Q1; destruct (166 + tlv_total (map mint_ext_len (y' :: r')) =? multisig_len) eqn:Q2;
    [apply N.eqb_eq in Q1, Q2; exfalso; lia|lia..].
Qed.
Lemma first_sync_aux : forall e0 e fee payer u source program l src w a m,
  reachable e0 l -> same_curve e0 e -> w = wrapped_mint_of e u t22_id -> a = authority_of e w ->
  sync_addresses_exist e u t22_id -> derivable e (metaplex_seeds u) mpl_id -> 0 < lamports l u -> (forall x y, e_realloc_ok e x y = true) ->
  authentic_metadata e l u src -> sync_asks e l u source program -> (forall m, mint_account l u t22_id m -> ~ pointer_of m (Some payer)) ->
  wallet l payer -> fee + e_rent e 0 <= lamports l payer ->
  (forall x y, x < y -> e_rent e x < e_rent e y) ->
  mint_account l w t22_id m -> (forall t, ~ own_metadata m t) -> lamports l w = e_rent e (m_len m) ->
  exists t l', cli_sync_to_token_2022 e payer u source program l = Ok t /\ refused e fee t l l' EAccountNotRentExempt /\ paid l l' payer fee /\ only_changed l l' [payer].
Proof.
  intros e0 e fee payer u source program l src w a m R C Ew Ea Ad Dm Lu Re A Ask Npp Wal Fee Mono M Nm Lw.
  destruct (reach_wrapped e0 e l u t22_id R C) as [[U _]|(_ & m0 & M0 & _ & T0 & X0)]; rewrite <- Ew in *.
  { exfalso. destruct M as (_ & D & _). rewrite D in U. discriminate U. }
  rewrite (mint_fun l w _ _ _ _ M0 M) in *. clear m0 M0.
  assert (Nu : ~ unallocated l w). { intros [U _]. destruct M as (_ & D & _). rewrite D in U. discriminate U. }
  assert (Ad' := Ad).
  destruct (cli_sync_aux e0 e fee payer u source program l src w a R C Ew Ea Nu Ad' Dm Lu Re A Ask Npp Wal Fee) as (t & m1 & m' & t' & Cli & M1 & Sc & Ti & Om & _ & _ & Ref).
  rewrite (mint_fun l w _ _ _ _ M1 M) in *. clear m1 M1.
  assert (Ne : m_exts m <> []). { intro Q. apply (wrapped_exts_pointer w (authority_of e w) m X0). unfold no_pointer, ext_pointer. rewrite Q. reflexivity. }
  assert (N0 : ext_metadata m = None). { destruct (ext_metadata m) as [t0|] eqn:Q; [exfalso; exact (Nm t0 Q)|reflexivity]. }
  pose proof (metadata_grows w (authority_of e w) m m' t' X0 Sc T0 Ti N0 Om) as G. pose proof (Mono _ _ G) as G2.
  destruct Ref as (l' & F1 & F2 & F3).
  - lia.
  - rewrite Lw. assert (m_len m <> 0). { unfold tight in T0. rewrite T0. unfold mint_space. destruct (m_exts m); [contradiction (Ne eq_refl)|]. unfold adjust_multisig. destruct (_ =? _); lia. }
    pose proof (Mono 0 (m_len m)) as Q. lia.
  - rewrite Lw. exact G2.
  - exists t, l'. split; [exact Cli|]. split; [exact F1|]. split; [exact F2|exact F3].
Qed.
(** ... in particular (a finding): create-mint leaves a wrapped mint with exactly the rent for its size without metadata (C40),
    so — rent growing with size — the first sync after it is always refused, until somebody adds lamports. *)
Theorem C46_first_sync : forall e0 e fee payer u source program l src m,
  reachable e0 l -> same_curve e0 e -> let w := wrapped_mint_of e u t22_id in
  sync_addresses_exist e u t22_id -> derivable e (metaplex_seeds u) mpl_id -> 0 < lamports l u -> (forall x y, e_realloc_ok e x y = true) ->
  authentic_metadata e l u src -> sync_asks e l u source program -> (forall m, mint_account l u t22_id m -> ~ pointer_of m (Some payer)) ->
  wallet l payer -> fee + e_rent e 0 <= lamports l payer ->
  (forall x y, x < y -> e_rent e x < e_rent e y) ->
  mint_account l w t22_id m -> (forall t, ~ own_metadata m t) -> lamports l w = e_rent e (m_len m) ->
  exists t l', cli_sync_to_token_2022 e payer u source program l = Ok t /\ refused e fee t l l' EAccountNotRentExempt /\ paid l l' payer fee /\ only_changed l l' [payer].
Proof.
  intros e0 e fee payer u source program l src m R C w Ad Dm Lu Re A Ask Npp Wal Fee Mono M Nm Lw.
  exact (first_sync_aux e0 e fee payer u source program l src w (authority_of e w) m R C eq_refl eq_refl Ad Dm Lu Re A Ask Npp Wal Fee Mono M Nm Lw).
Qed.
Print Assumptions C46_first_sync.

(** ** Unset pointers *)
Lemma unset_aux : forall e fee payer u source program l w a m,
  w = wrapped_mint_of e u t22_id -> a = authority_of e w -> a_owner (l w) = t22_id ->
  sync_addresses_exist e u t22_id -> derivable e (metaplex_seeds u) mpl_id -> 0 < lamports l u ->
  mint_account l u t22_id m -> pointer_of m None -> wallet l payer -> fee + e_rent e 0 <= lamports l payer ->
  exists t l', cli_sync_to_token_2022 e payer u source program l = Ok t /\ refused e fee t l l' (ETw MetadataPointerUnset) /\ paid l l' payer fee /\ only_changed l l' [payer].
Proof.
  intros e fee payer u source program l w a m Ew Ea Ow Ad Dm Lu M P Wal Fee.
  assert (Cli : exists s, cli_sync_to_token_2022 e payer u source program l = Ok (mkTx payer [TxTokenWrap (build_sync_to_token_2022 tw_id w a u s program)] [payer])).
  { pose proof Ad as (D1 & D2). unfold cli_sync_to_token_2022. rewrite (get_w_ok e u t22_id D1), <- Ew. cbn [bind]. rewrite Ew in Ea |- *. rewrite (get_a_ok e _ D2), <- Ea. cbn [bind].
    destruct source as [k0|]; cbn [bind]; [eexists; reflexivity|]. unfold resolve_source_metadata, get_account. unfold lamports in Lu.
    replace (a_lamports (l u) =? 0) with false by (symmetry; apply N.eqb_neq; lia). cbn [bind]. unfold metaplex_find_pda. rewrite (findable_get e _ _ Dm). cbn [bind fst].
    destruct M as (O & D & I). destruct P as [x P]. rewrite O. change (pk_eqb t22_id spl_token_id) with false; change (pk_eqb t22_id t22_id) with true; cbv iota.
    rewrite D, (pod_unpack_mint_ok m I); cbn [bind]; rewrite P. eexists. reflexivity. }
  destruct Cli as [s Cli]. set (ix := build_sync_to_token_2022 tw_id w a u s program) in *. remember (charge payer fee l) as l0 eqn:E0.
  set (acc := raised e payer [TxTokenWrap ix] (tx_metas ix)).
  assert (Hk : map i_key acc = [w; a; u; t22_id] ++ map i_key (opt_meta s ++ opt_meta program)) by (unfold acc; rewrite raised_keys; reflexivity).
  assert (K4 : keys_are acc [w; a; u; t22_id]) by (eexists; exact Hk).
  assert (F : fails e acc SyncMetadataToToken2022 l0 (ETw MetadataPointerUnset)).
  { apply (C26_refused_t22 e acc l0 w a u _ K4 Ad Ew Ea); [rewrite E0, (proj2 (charge_same payer fee l w)); exact Ow|].
    apply (se_unset e l0 u m); [rewrite E0; apply charge_mint; exact M|exact P]. }
  exists (mkTx payer [TxTokenWrap ix] [payer]), l0. split; [exact Cli|]. split.
  - unfold refused. rewrite (one_sends e fee payer ix SyncMetadataToToken2022 l l0 (sync_unsigned tw_id w a u s program) eq_refl eq_refl Wal Fee E0).
    fold acc. unfold fails in F. rewrite F. reflexivity.
  - rewrite E0. apply charge_paid. unfold lamports in Fee. lia.
Qed.
(** ... and (a finding): for a mint whose pointer is unset the command falls back to the Metaplex account, or takes what it is
    given, but whatever it sends is refused. *)
Theorem C46_unset : forall e fee payer u source program l m,
  let w := wrapped_mint_of e u t22_id in a_owner (l w) = t22_id ->
  sync_addresses_exist e u t22_id -> derivable e (metaplex_seeds u) mpl_id -> 0 < lamports l u ->
  mint_account l u t22_id m -> pointer_of m None -> wallet l payer -> fee + e_rent e 0 <= lamports l payer ->
  exists t l', cli_sync_to_token_2022 e payer u source program l = Ok t /\ refused e fee t l l' (ETw MetadataPointerUnset) /\ paid l l' payer fee /\ only_changed l l' [payer].
Proof.
  intros e fee payer u source program l m w Ow Ad Dm Lu M P Wal Fee.
  exact (unset_aux e fee payer u source program l w (authority_of e w) m eq_refl eq_refl Ow Ad Dm Lu M P Wal Fee).
Qed.
Print Assumptions C46_unset.

(** ** Examples *)
Definition cli_md (n : N) : list cmd := CFund d_bob 1000 :: CFund (d_w t22_id) n :: tl md_story.
Lemma cli_md_mint n : n = 9000 \/ n = 3030 ->
  exists m t, mint_account (now_of (cli_md n)) d_u t22_id m /\ ext_pointer m = Some (Some d_mintauth, Some d_u) /\ own_metadata m t /\
    tm_name t = "Coin"%string /\ tm_additional t = [("k", "v")]%string.
Proof.
  intro Hn.
  assert (M : exists mu, a_data (now_of (cli_md n) d_u) = DMint mu /\ a_owner (now_of (cli_md n) d_u) = t22_id).
  { destruct Hn as [-> | ->]; eexists; (split; [vm_compute; reflexivity|vm_compute; reflexivity]). }
  destruct M as [mu [Hm Ho]].
  assert (X : m_init mu = true /\ ext_pointer mu = Some (Some d_mintauth, Some d_u) /\ exists t, own_metadata mu t /\ tm_name t = "Coin"%string /\ tm_additional t = [("k", "v")]%string).
  { clear Ho. destruct Hn as [-> | ->]; revert Hm; vm_compute; intro X; inversion X; subst mu; (split; [reflexivity|split; [reflexivity|eexists; split; [reflexivity|split; reflexivity]]]). }
  destruct X as (X1 & X2 & t & X3). exists mu, t. split; [split; [exact Ho|split; [exact Hm|exact X1]]|]. split; [exact X2|exact X3].
Qed.
Lemma cli_md_asks n : n = 9000 \/ n = 3030 -> sync_asks demo_env (now_of (cli_md n)) d_u None None.
Proof.
  intro Hn. destruct (cli_md_mint n Hn) as (m & t & M & P & _). intros k H. exfalso. inversion H as [O|m' M' P'| |m' k' M' P' N]; subst.
  - destruct M as (O' & _). rewrite O in O'. discriminate O'.
  - rewrite (mint_fun _ _ _ _ _ _ M' M) in P'. unfold no_pointer in P'. rewrite P in P'. discriminate P'.
  - rewrite (mint_fun _ _ _ _ _ _ M' M) in P'. destruct P' as [x P']. rewrite P in P'. injection P' as _ P'. exact (N (eq_sym P')).
Qed.
Example C46_example : exists t l' m' t', cli_sync_to_token_2022 demo_env d_bob d_u None None (now_of (cli_md 9000)) = Ok t /\
  accepted demo_env 5 t (now_of (cli_md 9000)) l' /\ l' (d_w t22_id) = mkAcc 9000 (DMint m') t22_id /\ own_metadata m' t' /\ tm_name t' = "Coin"%string.
Proof.
  destruct (cli_md_mint 9000 (or_introl eq_refl)) as (mu & src & Mu & Pu & Ou & Nm & _).
  destruct (C46_syncs demo_env demo_env 5 d_bob d_u None None (now_of (cli_md 9000)) src) as (t & m & m' & t' & H1 & _ & _ & _ & Om & Sh & Acc & Ref).
  - eexists. apply played_history. vm_compute. reflexivity.
  - apply same_curve_refl.
  - intros [X _]; vm_compute in X; discriminate X.
  - split; apply demo_derivable.
  - apply demo_derivable.
  - vm_compute. reflexivity.
  - intros x y. reflexivity.
  - apply (am_self demo_env _ d_u mu src Mu); [exists (Some d_mintauth); exact Pu|exact Ou].
  - apply cli_md_asks. left; reflexivity.
  - intros m M [x P]. rewrite (mint_fun _ _ _ _ _ _ M Mu), Pu in P. discriminate P.
  - vm_compute. repeat split; reflexivity.
  - vm_compute. discriminate.
  - assert (Snd : snd (send demo_env 5 (mkTx d_bob [TxTokenWrap md_sync] [d_bob]) (now_of (cli_md 9000))) = Ok tt) by (vm_compute; reflexivity).
    assert (T : cli_sync_to_token_2022 demo_env d_bob d_u None None (now_of (cli_md 9000)) = Ok (mkTx d_bob [TxTokenWrap md_sync] [d_bob])) by (vm_compute; reflexivity).
    rewrite T in H1. injection H1 as H1. rewrite <- H1 in *. destruct Acc as (l' & A1 & A2 & _).
    { destruct (N.eq_dec (m_len m') (m_len m)) as [E|E]; [left; exact E|right]. apply N.le_ngt. intro Lt. destruct (Ref E) as (l' & F & _); [vm_compute; reflexivity|exact Lt|].
      unfold refused in F. rewrite F in Snd. cbn [snd] in Snd. discriminate Snd. }
    exists (mkTx d_bob [TxTokenWrap md_sync] [d_bob]), l', m', t'. split; [exact T|]. split; [exact A1|]. split; [change (d_w t22_id) with (wrapped_mint_of demo_env d_u t22_id); rewrite A2; f_equal; vm_compute; reflexivity|]. split; [exact Om|].
    destruct Sh as [Sh _]. rewrite Sh. exact Nm.
Qed.
Print Assumptions C46_example.
(** The same mint, wrapped with create-mint's funding: the first sync is refused. *)
Example C46_first_sync_example : exists t l', cli_sync_to_token_2022 demo_env d_bob d_u None None (now_of (cli_md 3030)) = Ok t /\
  refused demo_env 5 t (now_of (cli_md 3030)) l' EAccountNotRentExempt /\ paid (now_of (cli_md 3030)) l' d_bob 5 /\ only_changed (now_of (cli_md 3030)) l' [d_bob].
Proof.
  destruct (cli_md_mint 3030 (or_intror eq_refl)) as (mu & src & Mu & Pu & Ou & Nm & _).
  assert (W : exists mw, a_data (now_of (cli_md 3030) (d_w t22_id)) = DMint mw) by (eexists; vm_compute; reflexivity). destruct W as [mw Hw].
  apply (C46_first_sync demo_env demo_env 5 d_bob d_u None None (now_of (cli_md 3030)) src mw).
  - eexists. apply played_history. vm_compute. reflexivity.
  - apply same_curve_refl.
  - split; apply demo_derivable.
  - apply demo_derivable.
  - vm_compute. reflexivity.
  - intros x y. reflexivity.
  - apply (am_self demo_env _ d_u mu src Mu); [exists (Some d_mintauth); exact Pu|exact Ou].
  - apply cli_md_asks. right; reflexivity.
  - intros m M [x P]. rewrite (mint_fun _ _ _ _ _ _ M Mu), Pu in P. discriminate P.
  - vm_compute. repeat split; reflexivity.
  - vm_compute. discriminate.
  - intros x y Lt. cbn [demo_env e_rent]. lia.
  - revert Hw. vm_compute. intro X. inversion X; subst mw. repeat split; auto.
  - intros t Q. revert Hw. vm_compute. intro X. inversion X; subst mw. discriminate Q.
  - revert Hw. vm_compute. intro X. inversion X; subst mw. reflexivity.
Qed.
Print Assumptions C46_first_sync_example.
(** A mint with an unset pointer. *)
Definition cli_unset : list cmd :=
  [ CFund d_bob 1000; CFund (d_w t22_id) 9000; CFund (d_b t22_id) 4000; CAlloc d_u (mint_space [MxMetadataPointer (Some d_mintauth) None]) 90000 t22_id;
    CTok t22_id [meta_w d_u false] (TiInitExt (MxMetadataPointer (Some d_mintauth) None));
    CTok t22_id [meta_w d_u false] (TiInitializeMint2 6 d_mintauth None); CTw i_create ].
Example C46_unset_example : exists t l', cli_sync_to_token_2022 demo_env d_bob d_u None None (now_of cli_unset) = Ok t /\
  refused demo_env 5 t (now_of cli_unset) l' (ETw MetadataPointerUnset) /\ paid (now_of cli_unset) l' d_bob 5 /\ only_changed (now_of cli_unset) l' [d_bob].
Proof.
  assert (M : exists mu, a_data (now_of cli_unset d_u) = DMint mu) by (eexists; vm_compute; reflexivity). destruct M as [mu Hm].
  apply (C46_unset demo_env 5 d_bob d_u None None (now_of cli_unset) mu).
  - vm_compute. reflexivity.
  - split; apply demo_derivable.
  - apply demo_derivable.
  - vm_compute. reflexivity.
  - revert Hm. vm_compute. intro X. inversion X; subst mu. repeat split; auto.
  - revert Hm. vm_compute. intro X. inversion X; subst mu. eexists. reflexivity.
  - vm_compute. repeat split; reflexivity.
  - vm_compute. discriminate.
Qed.
Print Assumptions C46_unset_example.
