(** * PropCliClose.v — C44: the close-stuck-escrow command. *)
From Verif Require Import Base Codec State Pda TokenProg Cpi Ata Meta Processor Builders Cli Tac PdaProofs TokProofs ProcProofs Spec HistorySpec CliSpec CloseProofs SpecLemmas
  InvState InvHist PropClose PropEscrow PropReach PropReach2 CliProofs CliSign CliCreate CodecProofs PropCreate PropCli PropCliEscrow PropCliWrap PropCliUnwrap Demo Demo2 DemoHist.

(** ** Transactions of one token-wrap instruction that only the payer signs *)
Lemma charge_reachable e0 l payer fee : reachable e0 l -> a_owner (l payer) = system_id -> reachable e0 (charge payer fee l).
Proof. intros [past H] O. exists (l :: past). exact (charge_history e0 past l payer fee H O). Qed.
Lemma one_sends e fee payer i ix l l0 :
  (forall k, ~ signed (tx_metas i) k) -> tx_prog i = tw_id -> tx_data i = pack ix ->
  wallet l payer -> fee + e_rent e 0 <= lamports l payer -> l0 = charge payer fee l ->
  send e fee (mkTx payer [TxTokenWrap i] [payer]) l =
    match outcome e (raised e payer [TxTokenWrap i] (tx_metas i)) ix l0 with
    | Ok l2 => if rents_ok e payer [TxTokenWrap i] l0 l2 then (l2, Ok tt) else (l0, Err EAccountNotRentExempt)
    | Err err => (l0, Err err)
    end.
Proof.
  intros Ns Pr Da (Wo & Wd & _) Fee E0. unfold send. cbn [tr_payer tr_ixs tr_signed]. cbv zeta. rewrite <- E0.
  assert (Hsig : forall k, must_sign e payer [TxTokenWrap i] k = true -> In k [payer]).
  { intros k Hk. apply one_signs in Hk. destruct Hk as [-> |Hk]; [left; reflexivity|]. exfalso. exact (Ns k Hk). }
  pose proof (proj2 (signatures_cover e (mkTx payer [TxTokenWrap i] [payer])) Hsig) as Hc. cbn [tr_payer tr_ixs tr_signed] in Hc. rewrite Hc. cbn [negb].
  rewrite Wo, pk_eqb_refl, Wd. cbn [data_is_empty data_len length N.of_nat N.eqb andb].
  replace (fee <=? a_lamports (l payer)) with true by (symmetry; apply N.leb_le; unfold lamports in Fee; lia). cbn [andb].
  assert (Hro : rent_ok e (l payer) (l0 payer) = true).
  { apply rent_ok_enough. rewrite E0. unfold charge. rewrite upd_same. cbn [with_lamports a_lamports a_data]. rewrite Wd. cbn [data_len length N.of_nat]. unfold lamports in Fee. lia. }
  rewrite Hro. cbn [negb run_ixs run_ix]. unfold outcome. rewrite Pr, Da.
  destruct (process_instruction e _ _ l0); reflexivity.
Qed.

Lemma cli_close_eval e payer u d wtp l w a esc :
  spl_or_t22 wtp -> close_addresses_exist e u wtp -> a_owner (l u) = t22_id -> 0 < lamports l u ->
  w = wrapped_mint_of e u wtp -> a = authority_of e w -> esc = escrow_of e u t22_id wtp ->
  cli_close_stuck_escrow e payer u d wtp l = Ok (mkTx payer [TxTokenWrap (build_close_stuck_escrow tw_id esc d u w a)] [payer]).
Proof.
  intros T (D1 & D2 & D3) Ou Lu Ew Ea Ee. unfold cli_close_stuck_escrow. rewrite (parse_ok wtp T). cbn [bind]. rewrite (owner_ok l u Lu), Ou. cbn [bind].
  rewrite bind_guard_true by reflexivity. rewrite (get_w_ok e u wtp D1), <- Ew. cbn [bind]. rewrite Ew in Ea |- *. rewrite (get_a_ok e _ D2), <- Ea. cbn [bind].
  rewrite (get_esc_ok e u t22_id wtp D1 D2 D3), <- Ee. reflexivity.
Qed.
Lemma close_unsigned prog esc d u w a k : ~ signed (tx_metas (build_close_stuck_escrow prog esc d u w a)) k.
Proof. intros (m & Hm & _ & Hs). cbn [tx_metas build_close_stuck_escrow] in Hm. destruct Hm as [<-|[<-|[<-|[<-|[<-|[<-|[]]]]]]]; discriminate Hs. Qed.
Lemma close_writes prog esc d u w a k : writable (tx_metas (build_close_stuck_escrow prog esc d u w a)) k -> k = esc \/ k = d.
Proof.
  intros (m & Hm & Hk & Hw). cbn [tx_metas build_close_stuck_escrow] in Hm.
  destruct Hm as [<-|[<-|[<-|[<-|[<-|[<-|[]]]]]]]; cbn [meta_w meta_r i_key i_writable] in Hk, Hw; try discriminate Hw; [left|right]; symmetry; exact Hk.
Qed.

(** What the command says it does: an escrow can be closed if it is empty (also of withheld fees), not frozen, and does not fit its mint. *)
Definition stuck (l : ledger) (u esc : pubkey) : Prop :=
  exists mu te, mint_account l u t22_id mu /\ token_account l esc t22_id te /\ t_amount te = 0 /\ t_state te = Initialized /\ withheld te = 0 /\ ~ healthy mu te.

Lemma cli_close_aux : forall e0 e fee payer u d wtp l w a esc,
  reachable e0 l -> same_curve e0 e -> spl_or_t22 wtp -> w = wrapped_mint_of e u wtp -> a = authority_of e w -> esc = escrow_of e u t22_id wtp ->
  ~ unallocated l w -> close_addresses_exist e u wtp -> 0 < lamports l u -> d <> esc -> d <> u ->
  wallet l payer -> fee + e_rent e 0 <= lamports l payer -> e_rent e (data_len (a_data (l d))) <= lamports l d + lamports l esc ->
  stuck l u esc ->
  exists t l', cli_close_stuck_escrow e payer u d wtp l = Ok t /\ accepted e fee t l l' /\
    l' esc = mkAcc 0 (DRaw []) system_id /\
    (d <> payer -> l' d = mkAcc (lamports l d + lamports l esc) (a_data (l d)) (a_owner (l d)) /\ paid l l' payer fee) /\
    (d = payer -> lamports l' d + fee = lamports l d + lamports l esc /\ a_data (l' d) = a_data (l d) /\ a_owner (l' d) = a_owner (l d)) /\
    only_changed l l' [payer; esc; d].
Proof.
  intros e0 e fee payer u d wtp l w a esc R C T Ew Ea Ee Nu Ad Lu Nde Ndu Wal Fee Rd (mu & te & M & Te & Am & St & Wh & NH).
  pose proof M as (Ou & _). set (ix := build_close_stuck_escrow tw_id esc d u w a).
  pose proof (cli_close_eval e payer u d wtp l w a esc T Ad Ou Lu Ew Ea Ee) as Cli. fold ix in Cli.
  pose proof Wal as (Wo & Wd & _ & _). remember (charge payer fee l) as l0 eqn:E0.
  assert (R0 : reachable e0 l0) by (rewrite E0; apply charge_reachable; assumption).
  pose proof (wallet_not_token l esc t22_id te payer Wal (or_intror eq_refl) Te) as Ne.
  assert (Ce : l0 esc = l esc) by (rewrite E0; apply charge_other; exact Ne).
  set (acc := raised e payer [TxTokenWrap ix] (tx_metas ix)).
  assert (Hk : map i_key acc = [esc; d; u; w; a; t22_id] ++ []) by (unfold acc; rewrite raised_keys; reflexivity).
  assert (Wr : forall k, k = esc \/ k = d -> writable acc k).
  { intros k Hkk. apply raised_writable; [left; reflexivity|]. exists (meta_w k false). split; [|split; reflexivity].
    destruct Hkk as [-> | ->]; [left; reflexivity|right; left; reflexivity]. }
  assert (Live : exists l2, succeeds e acc CloseStuckEscrow l0 l2).
  { assert (Nu0 : ~ unallocated l0 w). { intro Q. apply Nu. unfold unallocated in *. rewrite E0 in Q. rewrite (proj1 (charge_same payer fee l w)), (proj2 (charge_same payer fee l w)) in Q. exact Q. }
    apply (close_exact_aux e0 e l0 acc [] d u wtp w a esc R0 C T Ew Ea Ee Nu0 Ad Hk (Wr esc (or_introl eq_refl)) (Wr d (or_intror eq_refl)) Nde Ndu).
    exists mu, te. split; [rewrite E0; apply charge_mint; exact M|]. split; [rewrite E0; apply charge_token; exact Te|]. split; [exact Am|]. split; [exact St|]. split; [exact Wh|exact NH]. }
  destruct Live as [l2 H2].
  assert (K6 : keys_are acc [esc; d; u; w; a; t22_id]) by (exists []; exact Hk).
  destruct (C22_close e acc l0 l2 esc d u w a t22_id K6 H2) as (_ & _ & _ & Le & Ld & Lo).
  assert (Fp : fee <= a_lamports (l payer)) by (unfold lamports in Fee; lia).
  exists (mkTx payer [TxTokenWrap ix] [payer]), l2. split; [exact Cli|].
  assert (Dd : a_data (l0 d) = a_data (l d) /\ a_owner (l0 d) = a_owner (l d)) by (rewrite E0; apply charge_same).
  destruct Dd as [Dd Od].
  split; [|split; [exact Le|split; [|split]]].
  - unfold accepted. rewrite (one_sends e fee payer ix CloseStuckEscrow l l0 (close_unsigned tw_id esc d u w a) eq_refl eq_refl Wal Fee E0).
    fold acc. unfold succeeds in H2. rewrite H2.
    assert (Ro : rents_ok e payer [TxTokenWrap ix] l0 l2 = true).
    { apply rents_ok_intro. intros k Kw. apply one_writes in Kw.
      destruct (pk_dec k esc) as [-> |Nk]; [unfold rent_ok; rewrite Le; reflexivity|].
      destruct (pk_dec k d) as [-> |Nk2].
      - apply rent_ok_enough. rewrite Ld. cbn [a_data a_lamports]. unfold lamports. rewrite Dd, Ce.
        destruct (pk_dec d payer) as [-> |Np].
        + rewrite E0. unfold charge. rewrite upd_same. cbn [with_lamports a_lamports]. rewrite Wd. cbn [data_len length N.of_nat]. unfold lamports in Fee. lia.
        + rewrite E0. rewrite (charge_other payer fee l d Np). unfold lamports in Rd. exact Rd.
      - apply rent_ok_same; rewrite (Lo k Nk Nk2); reflexivity. }
    rewrite Ro. reflexivity.
  - intro Np. assert (Cd : l0 d = l d) by (rewrite E0; apply charge_other; exact Np). split; [rewrite Ld; unfold lamports; rewrite Cd, Ce; reflexivity|].
    assert (Hp : l2 payer = l0 payer) by (apply Lo; intro Q; [apply Ne; symmetry; exact Q|apply Np; symmetry; exact Q]).
    unfold paid, lamports. rewrite Hp, E0. unfold charge. rewrite upd_same. cbn [with_lamports a_lamports a_data a_owner]. split; [lia|split; reflexivity].
  - intro Q. unfold lamports. rewrite Ld. cbn [a_lamports a_data a_owner]. unfold lamports. rewrite Ce. split; [|split; [exact Dd|exact Od]]. subst d. rewrite E0. unfold charge. rewrite upd_same. cbn [with_lamports a_lamports]. lia.
  - intros k Hkn. assert (K0 : k <> payer) by (intro Q; apply Hkn; left; symmetry; exact Q).
    rewrite Lo; [rewrite E0; apply charge_other; exact K0| |]; intro Q; apply Hkn; right; [left|right; left]; symmetry; exact Q.
Qed.
(** ** C44.  close-stuck-escrow: in every reachable state in which the wrapped mint exists and the escrow is stuck, the
    command sends a transaction that is accepted: the escrow is gone, its lamports are with the destination (which may
    be the payer; it must end up with its rent), the payer pays the network fee, and nothing else changes.  Nobody but the
    payer signs. *)
Theorem C44_closes : forall e0 e fee payer u d wtp l,
  reachable e0 l -> same_curve e0 e -> spl_or_t22 wtp ->
  let w := wrapped_mint_of e u wtp in let esc := escrow_of e u t22_id wtp in
  ~ unallocated l w -> close_addresses_exist e u wtp -> 0 < lamports l u -> d <> esc -> d <> u ->
  wallet l payer -> fee + e_rent e 0 <= lamports l payer -> e_rent e (data_len (a_data (l d))) <= lamports l d + lamports l esc ->
  stuck l u esc ->
  exists t l', cli_close_stuck_escrow e payer u d wtp l = Ok t /\ accepted e fee t l l' /\
    l' esc = mkAcc 0 (DRaw []) system_id /\
    (d <> payer -> l' d = mkAcc (lamports l d + lamports l esc) (a_data (l d)) (a_owner (l d)) /\ paid l l' payer fee) /\
    (d = payer -> lamports l' d + fee = lamports l d + lamports l esc /\ a_data (l' d) = a_data (l d) /\ a_owner (l' d) = a_owner (l d)) /\
    only_changed l l' [payer; esc; d].
Proof.
  intros e0 e fee payer u d wtp l R C T w esc Nu Ad Lu Nde Ndu Wal Fee Rd St.
  exact (cli_close_aux e0 e fee payer u d wtp l w (authority_of e w) esc R C T eq_refl eq_refl eq_refl Nu Ad Lu Nde Ndu Wal Fee Rd St).
Qed.
Print Assumptions C44_closes.

Lemma cli_close_healthy_aux : forall e0 e fee payer u d wtp l w a esc mu te,
  reachable e0 l -> same_curve e0 e -> spl_or_t22 wtp -> w = wrapped_mint_of e u wtp -> a = authority_of e w -> esc = escrow_of e u t22_id wtp ->
  ~ unallocated l w -> close_addresses_exist e u wtp -> 0 < lamports l u -> wallet l payer -> fee + e_rent e 0 <= lamports l payer ->
  mint_account l u t22_id mu -> token_account l esc t22_id te -> t_amount te = 0 -> t_state te = Initialized -> healthy mu te ->
  exists t l', cli_close_stuck_escrow e payer u d wtp l = Ok t /\ refused e fee t l l' (ETw EscrowInGoodState) /\
    paid l l' payer fee /\ only_changed l l' [payer].
Proof.
  intros e0 e fee payer u d wtp l w a esc mu te R C T Ew Ea Ee Nu Ad Lu Wal Fee M Te Am St HH.
  pose proof M as (Ou & _). set (ix := build_close_stuck_escrow tw_id esc d u w a).
  pose proof (cli_close_eval e payer u d wtp l w a esc T Ad Ou Lu Ew Ea Ee) as Cli. fold ix in Cli.
  pose proof Wal as (Wo & Wd & _ & _). remember (charge payer fee l) as l0 eqn:E0.
  assert (R0 : reachable e0 l0) by (rewrite E0; apply charge_reachable; assumption).
  set (acc := raised e payer [TxTokenWrap ix] (tx_metas ix)).
  assert (Hk : map i_key acc = [esc; d; u; w; a; t22_id] ++ []) by (unfold acc; rewrite raised_keys; reflexivity).
  assert (Nu0 : ~ unallocated l0 w). { intro Q. apply Nu. unfold unallocated in *. rewrite E0 in Q. rewrite (proj1 (charge_same payer fee l w)), (proj2 (charge_same payer fee l w)) in Q. exact Q. }
  assert (M0 : mint_account l0 u t22_id mu) by (rewrite E0; apply charge_mint; exact M).
  assert (Te0 : token_account l0 esc t22_id te) by (rewrite E0; apply charge_token; exact Te).
  pose proof (close_healthy_aux e0 e l0 acc [] d u wtp w a esc mu te R0 C T Ew Ea Ee Nu0 Ad Hk M0 Te0 Am St HH) as F.
  exists (mkTx payer [TxTokenWrap ix] [payer]), l0. split; [exact Cli|]. split.
  - unfold refused. rewrite (one_sends e fee payer ix CloseStuckEscrow l l0 (close_unsigned tw_id esc d u w a) eq_refl eq_refl Wal Fee E0).
    fold acc. unfold fails in F. rewrite F. reflexivity.
  - rewrite E0. apply charge_paid. unfold lamports in Fee. lia.
Qed.
(** ... if the escrow fits its mint, the transaction is refused and says so; it costs the network fee. *)
Theorem C44_healthy : forall e0 e fee payer u d wtp l mu te,
  reachable e0 l -> same_curve e0 e -> spl_or_t22 wtp ->
  let w := wrapped_mint_of e u wtp in let esc := escrow_of e u t22_id wtp in
  ~ unallocated l w -> close_addresses_exist e u wtp -> 0 < lamports l u -> wallet l payer -> fee + e_rent e 0 <= lamports l payer ->
  mint_account l u t22_id mu -> token_account l esc t22_id te -> t_amount te = 0 -> t_state te = Initialized -> healthy mu te ->
  exists t l', cli_close_stuck_escrow e payer u d wtp l = Ok t /\ refused e fee t l l' (ETw EscrowInGoodState) /\
    paid l l' payer fee /\ only_changed l l' [payer].
Proof.
  intros e0 e fee payer u d wtp l mu te R C T w esc Nu Ad Lu Wal Fee M Te Am St HH.
  exact (cli_close_healthy_aux e0 e fee payer u d wtp l w (authority_of e w) esc mu te R C T eq_refl eq_refl eq_refl Nu Ad Lu Wal Fee M Te Am St HH).
Qed.
Print Assumptions C44_healthy.

(** ... and never for anything else: if the command's transaction is accepted, the mint was a Token-2022 mint, its escrow
    was stuck, and it is this escrow that is gone. *)
Lemma cli_close_inv e payer u d wtp l t :
  cli_close_stuck_escrow e payer u d wtp l = Ok t ->
  spl_or_t22 wtp /\ 0 < lamports l u /\ a_owner (l u) = t22_id /\
  exists w a esc, w = wrapped_mint_of e u wtp /\ a = authority_of e w /\ esc = escrow_of e u t22_id wtp /\
    t = mkTx payer [TxTokenWrap (build_close_stuck_escrow tw_id esc d u w a)] [payer].
Proof.
  intro H. unfold cli_close_stuck_escrow in H. apply bind_ok in H. destruct H as (q & Eq & H).
  apply bind_ok in H. destruct H as (utp & E1 & H). apply bind_ok in H. destruct H as ([] & G & H). apply guard_ok in G. apply pk_eqb_eq in G.
  apply bind_ok in H. destruct H as (w & Ew & H). apply get_wrapped_mint_address_ok in Ew.
  apply bind_ok in H. destruct H as (a & Ea & H). apply get_wrapped_mint_authority_ok in Ea.
  apply bind_ok in H. destruct H as (esc & Ee & H). apply escrow_found in Ee. injection H as <-.
  split. { unfold parse_token_program in Eq. apply bind_ok in Eq. destruct Eq as ([] & G2 & _). apply guard_ok in G2. apply orb_true_iff in G2.
    destruct G2 as [G2|G2]; apply pk_eqb_eq in G2; [left|right]; exact G2. }
  subst utp. split. { unfold get_account_owner, get_account in E1. unfold lamports. destruct (a_lamports (l u) =? 0) eqn:Z; [discriminate E1|]. apply N.eqb_neq in Z. lia. }
  split; [symmetry; exact (owner_inv l u t22_id E1)|]. exists w, a, esc. split; [exact Ew|]. split; [exact Ea|]. split; [exact Ee|reflexivity].
Qed.
Theorem C44_means : forall e0 e fee payer u d wtp l l' t,
  reachable e0 l -> same_curve e0 e ->
  let esc := escrow_of e u t22_id wtp in
  cli_close_stuck_escrow e payer u d wtp l = Ok t -> accepted e fee t l l' ->
  stuck l u esc /\ d <> esc /\ unallocated l' esc /\ lamports l' esc = 0.
Proof.
  intros e0 e fee payer u d wtp l l' t R C esc0 Cli Acc.
  destruct (cli_close_inv e payer u d wtp l t Cli) as (T & Lu & Ou & w & a & esc & Ew & Ea & Ee & Et).
  change esc0 with (escrow_of e u t22_id wtp). rewrite <- Ee. clear esc0.
  unfold accepted in Acc. apply send_cases in Acc. destruct Acc as [(_ & err & Q)|(Wo & _ & Fp & _ & [(_ & err & Q)|(_ & Run)])]; [discriminate Q|discriminate Q|].
  rewrite Et in Wo, Fp, Run. cbn [tr_payer tr_ixs] in Wo, Fp, Run. remember (charge payer fee l) as l0 eqn:E0.
  set (ix := build_close_stuck_escrow tw_id esc d u w a) in *. set (acc := raised e payer [TxTokenWrap ix] (tx_metas ix)) in *.
  assert (S : succeeds e acc CloseStuckEscrow l0 l').
  { cbn [run_ixs run_ix] in Run. apply bind_ok in Run. destruct Run as (lx & Run & Q). injection Q as <-. exact Run. }
  assert (R0 : reachable e0 l0) by (rewrite E0; apply charge_reachable; assumption).
  assert (Hk : map i_key acc = [esc; d; u; w; a; t22_id] ++ []) by (unfold acc; rewrite raised_keys; reflexivity).
  assert (K6 : keys_are acc [esc; d; u; w; a; t22_id]) by (exists []; exact Hk).
  destruct (C22_close e acc l0 l' esc d u w a t22_id K6 S) as (_ & (Nd & _) & (mu & te & M & Te & To & Am & St & NH) & Le & _ & _).
  assert (Sd : forall k, a_data (l0 k) = a_data (l k) /\ a_owner (l0 k) = a_owner (l k)) by (intro k; rewrite E0; apply charge_same).
  pose proof Te as (Oe & De & Se). assert (T22 : spl_or_t22 t22_id) by (right; reflexivity).
  assert (Wh : withheld te = 0).
  { unfold succeeds in S. rewrite close_outcome in S.
    destruct (process_close_inv e (mkCtx tw_id acc) l0 l' esc d u w a t22_id [] Hk eq_refl S) as (_ & _ & _ & _ & _ & et & m & msc & _ & _ & _ & _ & _ & _ & _ & _ & _ & Hc).
    exact (close_withheld _ _ _ _ _ _ _ _ _ _ De Hc). }
  split.
  - exists mu, te. split; [rewrite E0 in M; exact (charge_mint_inv payer fee l u t22_id mu M)|].
    split. { unfold token_account. destruct (Sd esc) as [S1 S2]. rewrite <- S1, <- S2. exact Te. }
    split; [exact Am|]. split; [exact St|]. split; [exact Wh|].
    apply NH; [exact (reach_distinct_mint _ _ _ _ _ R0 T22 M)|exact (reach_distinct_acct _ _ _ _ _ R0 T22 Oe De)].
  - split; [intro Q; apply Nd; symmetry; exact Q|]. unfold unallocated, lamports. rewrite Le. cbn [a_data a_owner a_lamports]. split; [split; reflexivity|reflexivity].
Qed.
Print Assumptions C44_means.
(** ... the command itself stops for mints of SPL Token. *)
Theorem C44_spl_token : forall e payer u d wtp l t, a_owner (l u) <> t22_id -> cli_close_stuck_escrow e payer u d wtp l <> Ok t.
Proof. intros e payer u d wtp l t O H. apply O. destruct (cli_close_inv e payer u d wtp l t H) as (_ & _ & Q & _). exact Q. Qed.

(** Bob closes the stale escrow of [stuck_story], for himself. *)
Definition cli_stuck : list cmd := stuck_story ++ [CFund d_bob 1000].
Example C44_example : exists t l', cli_close_stuck_escrow demo_env d_bob d_u d_bob spl_token_id (now_of cli_stuck) = Ok t /\ accepted demo_env 5 t (now_of cli_stuck) l' /\
  l' (d_esc t22_id spl_token_id) = mkAcc 0 (DRaw []) system_id /\ lamports (now_of cli_stuck) d_bob < lamports l' d_bob.
Proof.
  destruct (C44_closes demo_env demo_env 5 d_bob d_u d_bob spl_token_id (now_of cli_stuck)) as (t & l' & H1 & H2 & H3 & _ & H4 & _).
  - eexists. apply played_history. vm_compute. reflexivity.
  - apply same_curve_refl.
  - left; reflexivity.
  - intros [X _]; vm_compute in X; discriminate X.
  - split; [|split]; apply demo_derivable.
  - vm_compute. reflexivity.
  - vm_compute. discriminate.
  - vm_compute. discriminate.
  - vm_compute. repeat split; reflexivity.
  - vm_compute. discriminate.
  - vm_compute. discriminate.
  - do 2 eexists. split; [split; [vm_compute; reflexivity|split; [vm_compute; reflexivity|reflexivity]]|].
    split; [split; [vm_compute; reflexivity|split; [vm_compute; reflexivity|discriminate]]|].
    split; [reflexivity|]. split; [reflexivity|]. split; [reflexivity|].
    intro Q. specialize (Q XtNonTransferableAccount). cbn in Q. destruct Q as [Q _].
    destruct Q as [Q|Q]; [right; left; reflexivity| |discriminate Q]. inversion Q as [| X | | | ]. exact X.
  - exists t, l'. split; [exact H1|]. split; [exact H2|]. split; [exact H3|]. destruct (H4 eq_refl) as [Q _].
    assert (X : 5 < lamports (now_of cli_stuck) (escrow_of demo_env d_u t22_id spl_token_id)) by (vm_compute; reflexivity).
    remember (lamports (now_of cli_stuck) d_bob) as n1. remember (lamports l' d_bob) as n2. remember (lamports (now_of cli_stuck) (escrow_of demo_env d_u t22_id spl_token_id)) as n3. clear -Q X. lia.
Qed.
Print Assumptions C44_example.

(** The escrow of the same story before the mint was replaced: refused. *)
Definition cli_fit : list cmd := firstn 10 trap_setup ++ [CFund d_bob 1000].
Example C44_healthy_example : exists t l', cli_close_stuck_escrow demo_env d_bob d_u d_bob spl_token_id (now_of cli_fit) = Ok t /\
  refused demo_env 5 t (now_of cli_fit) l' (ETw EscrowInGoodState) /\ paid (now_of cli_fit) l' d_bob 5 /\ only_changed (now_of cli_fit) l' [d_bob].
Proof.
  assert (M : exists mu, a_data (now_of cli_fit d_u) = DMint mu) by (eexists; vm_compute; reflexivity). destruct M as [mu Hm].
  assert (E : exists te, a_data (now_of cli_fit (d_esc t22_id spl_token_id)) = DTok te) by (eexists; vm_compute; reflexivity). destruct E as [te He].
  apply (C44_healthy demo_env demo_env 5 d_bob d_u d_bob spl_token_id (now_of cli_fit) mu te).
  - eexists. apply played_history. vm_compute. reflexivity.
  - apply same_curve_refl.
  - left; reflexivity.
  - intros [X _]; vm_compute in X; discriminate X.
  - split; [|split]; apply demo_derivable.
  - vm_compute. reflexivity.
  - vm_compute. repeat split; reflexivity.
  - vm_compute. discriminate.
  - revert Hm. vm_compute. intro X. inversion X; subst mu. repeat split; auto.
  - revert He. vm_compute. intro X. inversion X; subst te. repeat split; auto; discriminate.
  - revert He. vm_compute. intro X. inversion X; subst te. reflexivity.
  - revert He. vm_compute. intro X. inversion X; subst te. reflexivity.
  - apply fresh_healthy_l. revert Hm He. vm_compute. intros X Y. inversion X; subst mu. inversion Y; subst te. reflexivity.
Qed.
Print Assumptions C44_healthy_example.

Lemma get_wrapped_mint_backpointer_address_ok e w k : get_wrapped_mint_backpointer_address e w = Ok k -> k = backpointer_of e w.
Proof.
  unfold get_wrapped_mint_backpointer_address, get_wrapped_mint_backpointer_address_for_program. intro H. apply bind_ok in H. destruct H as (r & E & H).
  injection H as <-. destruct r as [k s]. apply find_pda_fst in E. exact E.
Qed.
(** ** C45.  find-pdas prints the right addresses: in every reachable state, what they hold — if anything — is the wrapped
    mint, whose mint authority is the authority printed; the backpointer to the mint asked for; and the escrow, a token
    account of that mint that the authority printed owns. *)
Theorem C45_find_pdas : forall e0 e u wtp l w a b esc,
  reachable e0 l -> same_curve e0 e -> cli_find_pdas e u wtp l = Ok (w, a, b, esc) ->
  (w = wrapped_mint_of e u wtp /\ a = authority_of e w /\ b = backpointer_of e w /\ esc = escrow_of e u (a_owner (l u)) wtp) /\
  (unallocated l w <-> unallocated l b) /\
  (unallocated l w \/ exists m, mint_account l w wtp m /\ m_auth m = Some a) /\
  (unallocated l b \/ (a_owner (l b) = tw_id /\ a_data (l b) = DKey u)) /\
  (spl_or_t22 (a_owner (l u)) -> unallocated l esc \/ exists t, a_owner (l esc) = a_owner (l u) /\ a_data (l esc) = DTok t /\ t_mint t = u /\ t_owner t = a).
Proof.
  intros e0 e u wtp l w a b esc R C H. unfold cli_find_pdas in H. apply bind_ok in H. destruct H as (q & Eq & H).
  apply bind_ok in H. destruct H as (w' & Ew & H). apply get_wrapped_mint_address_ok in Ew.
  apply bind_ok in H. destruct H as (b' & Eb & H). apply get_wrapped_mint_backpointer_address_ok in Eb.
  apply bind_ok in H. destruct H as (a' & Ea & H). apply get_wrapped_mint_authority_ok in Ea.
  apply bind_ok in H. destruct H as (utp & Eu & H). apply owner_inv in Eu.
  apply bind_ok in H. destruct H as (esc' & Ee & H). apply escrow_found in Ee. injection H as -> -> -> ->. subst utp.
  assert (T : spl_or_t22 wtp).
  { unfold parse_token_program in Eq. apply bind_ok in Eq. destruct Eq as ([] & G2 & _). apply guard_ok in G2. apply orb_true_iff in G2.
    destruct G2 as [G2|G2]; apply pk_eqb_eq in G2; [left|right]; exact G2. }
  split; [repeat split; assumption|]. pose proof R as [past HH]. pose proof (history_inv _ _ _ HH) as I.
  pose proof (wrapped_mint_of_curve e0 e u wtp C) as Cw.
  split; [|split; [|split]].
  - pose proof (inv_pair _ _ I u wtp T) as P. rewrite Cw in P. rewrite <- Ew in P. rewrite (backpointer_of_curve e0 e w C) in P. rewrite <- Eb in P. exact P.
  - destruct (reach_wrapped e0 e l u wtp R C) as [Q|(_ & m & Q1 & Q2 & _)]; rewrite <- Ew in *; [left; exact Q|right]. exists m. rewrite Ea. split; [exact Q1|exact Q2].
  - pose proof (inv_backpointer e0 l u wtp I) as P. cbv zeta in P. rewrite Cw, <- Ew, (backpointer_of_curve e0 e w C), <- Eb in P.
    destruct P as [P|(_ & P1 & P2)]; [left; exact P|right; split; [exact P1|exact P2]].
  - intro Tu. destruct (C37_genuine e0 l u (a_owner (l u)) wtp R Tu) as [Q|(t & Q1 & Q2 & Q3 & Q4 & _)]; rewrite (escrow_of_curve e0 e _ _ _ C), <- Ee in *; [left; exact Q|right].
    exists t. split; [exact Q1|]. split; [exact Q2|]. split; [exact Q3|]. rewrite Q4, (authority_of_curve e0 e _ C), Cw, <- Ew. symmetry. exact Ea.
Qed.
Print Assumptions C45_find_pdas.
Example C45_example : exists w a b esc, cli_find_pdas demo_env d_u t22_id (now_of story) = Ok (w, a, b, esc) /\
  (exists m, mint_account (now_of story) w t22_id m /\ m_auth m = Some a) /\ a_data (now_of story b) = DKey d_u /\ exists t, a_data (now_of story esc) = DTok t /\ t_owner t = a.
Proof.
  exists (d_w t22_id), (d_a t22_id), (d_b t22_id), (d_esc spl_token_id t22_id). assert (E : cli_find_pdas demo_env d_u t22_id (now_of story) = Ok (d_w t22_id, d_a t22_id, d_b t22_id, d_esc spl_token_id t22_id)) by (vm_compute; reflexivity).
  assert (R : reachable demo_env (now_of story)) by (eexists; apply played_history; vm_compute; reflexivity).
  destruct (C45_find_pdas demo_env demo_env d_u t22_id (now_of story) _ _ _ _ R (same_curve_refl demo_env) E) as (_ & _ & H1 & H2 & H3).
  split; [exact E|]. split; [|split].
  - destruct H1 as [[X _]|H1]; [exfalso; vm_compute in X; discriminate X|exact H1].
  - destruct H2 as [[X _]|[_ H2]]; [exfalso; vm_compute in X; discriminate X|exact H2].
  - destruct H3 as [[X _]|(t & _ & H3 & _ & H4)]; [left; vm_compute; reflexivity|exfalso; vm_compute in X; discriminate X|]. exists t. split; [exact H3|exact H4].
Qed.
