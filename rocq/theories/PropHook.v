(** * PropHook.v — C70: transfer hooks in Wrap and Unwrap. *)
From Verif Require Import Base Codec State Pda TokenProg Cpi Meta Processor Builders Tac CodecProofs PdaProofs TokProofs FrameProofs ProcProofs Spec SpecLemmas CreateSpec WrapProofs WrapProofs2
  HistorySpec HookSpec TestHook InvState InvHist UnwrapLive WrapLive Demo Demo2 DemoHist PropRedeem PropEscrow PropReach2 PropWrap PropCustody PropWalkAway.

(** ** What a transfer does with a hook *)
Lemma transfer_hook e prog cpi ms src mnt dst auth signers amount dec expfee l l' m p :
  token_program prog ->
  tok_transfer_checked e prog cpi ms src mnt dst auth signers amount dec expfee l = Ok l' -> src <> dst ->
  a_data (l mnt) = DMint m -> ext_hook m = Some p ->
  exists l1 l2, e_hook e p ms amount l1 = Ok l2 /\ (forall k, k <> src -> k <> dst -> l1 k = l k) /\
    l1 src = l' src /\ l1 dst = l' dst /\
    forall k, l' k = (if is_wr ms k && hook_may l1 k then l2 k else l1 k).
Proof.
  intros Htp H Hne Dm Hh. pose proof H as H0. apply transfer_checked_inv in H.
  destruct H as (s & m' & fee & s1 & Hs & Hfr & Ham & Hmm & Hm & Hdec & Hfee & Hpa & Hexp & Hau & Ho1 & Ho2 & H).
  destruct H as [[? _]|(_ & d & dx & l3 & Hd & Hdfr & Hdm & _ & Hfl & Hov & Hdx & W1 & W2 & Hnat & Hhook)]; [contradiction|].
  pose proof Hm as Hm'. apply unpack_mint_inv in Hm'. destruct Hm' as (Dm' & _). assert (m' = m) by (clear -Dm Dm'; congruence). subst m'.
  assert (E3 : (forall k, k <> src -> k <> dst -> l3 k = l k) /\ a_owner (l3 src) = prog /\ a_owner (l3 dst) = prog).
  { unfold move_native in Hnat. destruct (t_native s).
    - apply move_lamports_inv in Hnat. destruct Hnat as (_ & _ & _ & Hle & ->). cbv zeta. unfold transfer_ledger. cbv zeta. split; [|split].
      + intros k K1 K2. rewrite !upd_other by auto. reflexivity.
      + rewrite (upd_other _ dst _ src) by auto. rewrite upd_same. cbn [with_lamports a_owner]. rewrite (upd_other _ dst _ src) by auto. rewrite upd_same. exact Ho1.
      + rewrite upd_same. cbn [with_lamports a_owner]. rewrite (upd_other _ src _ dst) by auto. rewrite upd_same. cbn [with_data a_owner].
        rewrite (upd_other _ src _ dst) by auto. exact Ho2.
    - inversion Hnat; subst l3. unfold transfer_ledger. cbv zeta. split; [|split].
      + intros k K1 K2. rewrite !upd_other by auto. reflexivity.
      + rewrite (upd_other _ dst _ src) by auto. rewrite upd_same. exact Ho1.
      + rewrite upd_same. cbn [with_data a_owner]. rewrite (upd_other _ src _ dst) by auto. exact Ho2. }
  destruct E3 as (E3 & O1 & O2).
  assert (T : prog = t22_id) by (eapply ext_hook_t22; [exact Htp|exact Hm|exact Hh]).
  assert (Sh : forall k, a_owner (l3 k) = prog -> l' k = l3 k).
  { intros k Hk. eapply run_hook_shield; [exact Hhook|]. right; right. apply hook_may_false. left. rewrite Hk. exact T. }
  unfold run_hook in Hhook. rewrite Hh in Hhook. apply bind_ok in Hhook. destruct Hhook as (l2 & Hc & Hhook).
  apply bind_ok in Hhook. destruct Hhook as ([] & _ & Hhook). injection Hhook as <-.
  exists l3, l2. split; [exact Hc|]. split; [exact E3|]. split; [symmetry; apply Sh; exact O1|]. split; [symmetry; apply Sh; exact O2|].
  intro k. reflexivity.
Qed.

(** C70: in a successful Wrap of a mint with a hook, the hook program has been called, once, with the source, the mint, the
    escrow, the transfer authority and the amount, on the ledger in which exactly the transfer has happened; what it then
    made of the accounts it can reach is what the caller finds (apart from the recipient's account and the wrapped mint,
    where the wrapped tokens are created afterwards), and nothing else has changed. *)
Theorem C70_wrap_calls_once : forall e accounts n l l' r w a up wp s u esc ta mu p,
  n < two64 -> keys_are accounts [r; w; a; up; wp; s; u; esc; ta] -> succeeds e accounts (Wrap n) l l' -> s <> esc ->
  mint_data l u mu -> ext_hook mu = Some p ->
  exists four extra before after, let ms := four ++ extra in
    e_extra e l accounts (skipn 9 accounts) = Ok extra /\
    map i_key four = [s; u; esc; ta] /\
    (forall k, writable ms k -> writable accounts k) /\ (forall k, signed ms k -> signed accounts k) /\
    e_hook e p ms n before = Ok after /\
    (before s = l' s /\ before esc = l' esc /\ forall k, k <> s -> k <> esc -> before k = l k) /\
    forall k, k <> s -> k <> esc -> k <> r -> k <> w ->
      (writable ms k -> a_owner (l k) <> t22_id -> a_owner (l k) <> tw_id -> is_tw_pda k = false -> l' k = after k) /\
      (~ writable ms k \/ a_owner (l k) = t22_id \/ a_owner (l k) = tw_id \/ is_tw_pda k = true -> l' k = l k).
Proof.
  intros e accounts n l l' r w a up wp s u esc ta mu p Hn Hk H Hse [Du Iu] Hh. pose proof Hk as Hk0.
  destruct Hk as [more Hk]. pose proof H as H0. unfold succeeds in H. rewrite outcome_instr in H by exact Hn.
  cbn [map_instr process_instr] in H. eapply process_wrap_inv_x in H; [|cbn [c_infos]; rewrite Hk; reflexivity|reflexivity].
  destruct H as (Hz & Hup & Hwp & Ew & Ea & Ee & et & um & ms & extra & l1 & msm & Het & Heo & Hum & Hfl & -> & [Hsg Hwr] & Htr & -> & [_ Hwr2] & Hmt & Hex).
  cbn [c_infos] in *.
  destruct (transfer_hook e up true _ s u esc ta _ n _ _ l l1 mu p Hup Htr Hse Du Hh) as (l2 & l3 & Hc & F2 & E1 & E2 & F3).
  pose proof (C13_distinct := wrap_exact_l e accounts n l l' r w a up wp s u esc ta Hn Hk0 H0 Hse).
  destruct C13_distinct as (mu' & mw & ts & te & fee & ts' & te' & _ & (_ & (Ow & Dw & _) & _ & (Os & Ds & _) & Ms & (Oe & De & _) & Me & _) & _ & _ & _ & _ & _ & (Nrs & Nre & Nrw) & _).
  apply mint_to_inv in Hmt. destruct Hmt as (tr & mw' & _ & _ & _ & _ & _ & _ & _ & _ & _ & _ & _ & _ & _ & _ & El).
  assert (Nws : s <> w) by (intro X; rewrite X in Ds; clear -Ds Dw; congruence).
  assert (Nwe : esc <> w) by (intro X; rewrite X in De; clear -De Dw; congruence).
  exists [meta_w s false; meta_r u false; meta_w esc false; meta_r ta (auth_is_signer l ta)], extra, l2, l3. cbv zeta.
  change ([meta_w s false; meta_r u false; meta_w esc false; meta_r ta (auth_is_signer l ta)] ++ extra) with (transfer_metas l s u esc ta extra).
  split; [exact Hex|]. split; [reflexivity|].
  split. { intros k K. apply writable_is_wr. apply Hwr. apply writable_is_wr. exact K. }
  split. { intros k K. apply signed_is_sig. apply Hsg. apply signed_is_sig. exact K. }
  split; [exact Hc|]. split.
  { rewrite El. rewrite !upd_other by congruence. split; [exact E1|]. split; [exact E2|exact F2]. }
  intros k K1 K2 K3 K4. rewrite El. rewrite !upd_other by congruence. rewrite (F3 k). split.
  - intros Wk N1 N2 N3. apply writable_is_wr in Wk. rewrite Wk.
    assert (Y : hook_may l2 k = true).
    { apply not_false_is_true. intro X. apply hook_may_false in X. rewrite (F2 k K1 K2) in X. destruct X as [X|[X|X]]; [exact (N1 X)|exact (N2 X)|]. clear -X N3. congruence. }
    rewrite Y. reflexivity.
  - intro X. assert (Y : (is_wr (transfer_metas l s u esc ta extra) k && hook_may l2 k)%bool = false).
    { apply andb_false_iff. destruct X as [X|X].
      - left. apply not_true_is_false. intro Y. apply X. apply writable_is_wr. exact Y.
      - right. apply hook_may_false. rewrite (F2 k K1 K2). exact X. }
    rewrite Y. exact (F2 k K1 K2).
Qed.
Print Assumptions C70_wrap_calls_once.

(** C70 for Unwrap: the wrapped tokens have been burned and the tokens released when the hook is called, once, with the
    escrow, the mint, the recipient, the authority of the wrapped mint and the amount; its answer is final. *)
Theorem C70_unwrap_calls_once : forall e accounts n l l' esc r a u wp up s w ta mu p,
  n < two64 -> keys_are accounts [esc; r; a; u; wp; up; s; w; ta] -> succeeds e accounts (Unwrap n) l l' -> r <> esc ->
  mint_data l u mu -> ext_hook mu = Some p ->
  exists burnt four extra before after, let ms := four ++ extra in
    (forall k, k <> s -> k <> w -> burnt k = l k) /\ balance burnt s + n = balance l s /\ supply burnt w + n = supply l w /\
    e_extra e burnt accounts (skipn 9 accounts) = Ok extra /\
    map i_key four = [esc; u; r; a] /\
    (forall k, writable ms k -> writable accounts k) /\ (forall k, signed ms k -> k = a \/ signed accounts k) /\
    e_hook e p ms n before = Ok after /\
    (before esc = l' esc /\ before r = l' r /\ forall k, k <> esc -> k <> r -> before k = burnt k) /\
    forall k, k <> esc -> k <> r ->
      (writable ms k -> a_owner (l k) <> t22_id -> a_owner (l k) <> tw_id -> is_tw_pda k = false -> l' k = after k) /\
      (~ writable ms k \/ a_owner (l k) = t22_id \/ a_owner (l k) = tw_id \/ is_tw_pda k = true -> l' k = burnt k).
Proof.
  intros e accounts n l l' esc r a u wp up s w ta mu p Hn Hk H Hne [Du Iu] Hh. pose proof Hk as Hk0.
  destruct Hk as [more Hk]. pose proof H as H0. unfold succeeds in H. rewrite outcome_instr in H by exact Hn.
  cbn [map_instr process_instr] in H. eapply process_unwrap_inv_x in H; [|cbn [c_infos]; rewrite Hk; reflexivity|reflexivity].
  destruct H as (Hz & Hup & Hwp & Ew & Ea & Ee & msk & msb & l1 & um & extra & ms & _ & _ & Hb & Hum & -> & [Hsg Hwr] & Htr & Hex).
  cbn [c_infos] in *.
  apply burn_inv in Hb. destruct Hb as (ts & mw & s1 & Hs & Hm & _ & _ & Les & Mts & Hau & Lew & Os & Ow & Nws & _ & _ & El).
  apply unpack_tok_inv in Hs. destruct Hs as (Ds & _). apply unpack_mint_inv in Hm. destruct Hm as (Dw & _).
  assert (Nuw : w <> u) by (rewrite Ew; apply wrapped_neq_unwrapped).
  assert (Nus : s <> u) by (intro X; rewrite X in Ds; clear -Ds Du; congruence).
  assert (F1 : forall k, k <> s -> k <> w -> l1 k = l k). { intros k K1 K2. rewrite El. rewrite !upd_other by congruence. reflexivity. }
  assert (Own1 : forall k, a_owner (l1 k) = a_owner (l k)).
  { intro k. rewrite El. destruct (pk_dec w k) as [<-|N1]; [rewrite upd_same; reflexivity|]. rewrite upd_other by exact N1.
    destruct (pk_dec s k) as [<-|N2]; [rewrite upd_same; reflexivity|]. rewrite upd_other by exact N2. reflexivity. }
  assert (Du1 : a_data (l1 u) = DMint mu) by (rewrite F1 by congruence; exact Du).
  assert (Hne' : esc <> r) by congruence.
  destruct (transfer_hook e up true _ esc u r a _ n _ _ l1 l' mu p Hup Htr Hne' Du1 Hh) as (l2 & l3 & Hc & F2 & E1 & E2 & F3).
  exists l1, [meta_w esc false; meta_r u false; meta_w r false; meta_r a (auth_is_signer l1 a)], extra, l2, l3. cbv zeta.
  change ([meta_w esc false; meta_r u false; meta_w r false; meta_r a (auth_is_signer l1 a)] ++ extra) with (transfer_metas l1 esc u r a extra).
  split; [exact F1|].
  split. { unfold balance. rewrite El. rewrite upd_other by congruence. rewrite upd_same. cbn [with_data a_data]. rewrite Ds. cbn [set_amount t_amount].
    assert (T1 : t_amount s1 = t_amount ts).
    { destruct Hau as [(_ & ->)|(_ & _ & Hau)]; [reflexivity|]. apply authorize_debit_fields in Hau. tauto. }
    rewrite T1. lia. }
  split. { unfold supply. rewrite El. rewrite upd_same. cbn [with_data a_data]. rewrite Dw. cbn [set_supply m_supply]. lia. }
  split; [exact Hex|]. split; [reflexivity|].
  split. { intros k K. apply writable_is_wr. apply Hwr. apply writable_is_wr. exact K. }
  split. { intros k K. apply signed_is_sig in K. destruct (Hsg k K) as [X|X]; [right; apply signed_is_sig; exact X|left; exact X]. }
  split; [exact Hc|]. split; [split; [exact E1|split; [exact E2|exact F2]]|].
  intros k K1 K2. rewrite (F3 k).
  assert (O2 : a_owner (l2 k) = a_owner (l k)) by (rewrite (F2 k K1 K2); apply Own1). split.
  - intros Wk N1 N2 N3. apply writable_is_wr in Wk. rewrite Wk.
    assert (Y : hook_may l2 k = true).
    { apply not_false_is_true. intro X. apply hook_may_false in X. rewrite O2 in X. destruct X as [X|[X|X]]; [exact (N1 X)|exact (N2 X)|]. clear -X N3. congruence. }
    rewrite Y. reflexivity.
  - intro X. assert (Y : (is_wr (transfer_metas l1 esc u r a extra) k && hook_may l2 k)%bool = false).
    { apply andb_false_iff. destruct X as [X|X].
      - left. apply not_true_is_false. intro Y. apply X. apply writable_is_wr. exact Y.
      - right. apply hook_may_false. rewrite O2. exact X. }
    rewrite Y. exact (F2 k K1 K2).
Qed.
Print Assumptions C70_unwrap_calls_once.

(** C70: a hook that refuses the transfer makes the whole Wrap, or Unwrap, fail. *)
Theorem C70_refused : forall e accounts n l k1 k2 k3 k4 k5 k6 k7 k8 k9 mu p,
  n < two64 -> keys_are accounts [k1; k2; k3; k4; k5; k6; k7; k8; k9] -> ext_hook mu = Some p ->
  (mint_data l k7 mu -> k6 <> k8 ->
   (forall four extra l1, map i_key four = [k6; k7; k8; k9] -> e_extra e l accounts (skipn 9 accounts) = Ok extra -> (forall k, k <> k6 -> k <> k8 -> l1 k = l k) ->
      exists err, e_hook e p (four ++ extra) n l1 = Err err) ->
   ~ exists l', succeeds e accounts (Wrap n) l l') /\
  (mint_data l k4 mu -> k2 <> k1 ->
   (forall four extra l1, map i_key four = [k1; k4; k2; k3] -> (forall k, k <> k1 -> k <> k2 -> k <> k7 -> k <> k8 -> l1 k = l k) ->
      exists err, e_hook e p (four ++ extra) n l1 = Err err) ->
   ~ exists l', succeeds e accounts (Unwrap n) l l').
Proof.
  intros e accounts n l k1 k2 k3 k4 k5 k6 k7 k8 k9 mu p Hn Hk Hh. split.
  - intros Mu Ne R (l' & H).
    destruct (C70_wrap_calls_once e accounts n l l' k1 k2 k3 k4 k5 k6 k7 k8 k9 mu p Hn Hk H Ne Mu Hh) as (four & extra & before & after & X1 & K & _ & _ & C & (_ & _ & F) & _).
    destruct (R four extra before K X1 F) as [err X]. rewrite C in X. discriminate X.
  - intros Mu Ne R (l' & H).
    destruct (C70_unwrap_calls_once e accounts n l l' k1 k2 k3 k4 k5 k6 k7 k8 k9 mu p Hn Hk H Ne Mu Hh) as (burnt & four & extra & before & after & B & _ & _ & _ & K & _ & _ & C & (_ & _ & F) & _).
    destruct (R four extra before K) as [err X]; [|rewrite C in X; discriminate X].
    intros k N1 N2 N3 N4. rewrite (F k N1 N2). exact (B k N3 N4).
Qed.
Print Assumptions C70_refused.

(** C70: in every reachable state, whoever holds tokens of a mint with a hook can wrap them, as in C36, if the hook agrees to
    the transfer. *)
Theorem C70_wrappable : forall e0 e past l u utp wtp accounts more signers extra n recipient source owner mu mw ts tr te,
  history e0 past l -> same_curve e0 e -> spl_or_t22 wtp -> spl_or_t22 utp ->
  let w := wrapped_mint_of e u wtp in let a := authority_of e w in let esc := escrow_of e u utp wtp in
  derivable e (wrapped_mint_seeds u wtp) tw_id -> derivable e (wrapped_mint_authority_seeds w) tw_id -> derivable e (ata_seeds a u utp) ata_id ->
  map i_key accounts = [recipient; w; a; utp; wtp; source; u; esc; owner] ++ more ->
  writable accounts esc -> writable accounts recipient -> writable accounts source -> writable accounts w ->
  (* the holder acts, alone or as a multisig of the unwrapped token program *)
  (forall m, a_data (l owner) = DMultisig m -> a_owner (l owner) = utp) -> owner_acts accounts l utp owner signers ->
  holder l utp u source owner ts -> open_account l source -> 0 < n -> n <= t_amount ts -> source <> esc ->
  unpaused l utp u mu ->
  (* the transfer helper finds what the hook asks for, and the hook agrees *)
  e_extra e l accounts (skipn 9 accounts) = Ok extra -> presented accounts u extra -> members_presented l owner signers extra ->
  hook_agrees e mu n l source u esc owner extra [recipient] ->
  token_account l esc utp te -> t_state te = Initialized -> (ext_fee mu <> None -> In XtTransferFeeAmount (map acct_ext_type_of (t_exts te))) ->
  mint_account l w wtp mw -> token_account l recipient wtp tr -> t_mint tr = w -> t_state tr = Initialized ->
  (ever (no_permanent_delegate u) past l \/ supply l w + n < two64) ->
  (native_mint u -> lamports l esc + lamports l source < two64) ->
  exists l', succeeds e accounts (Wrap n) l l'.
Proof.
  intros e0 e past l u utp wtp accounts more signers extra n recipient source owner mu mw ts tr te H C Tw Tu w a esc D1 D2 D3 Hk We Wr Ws Ww Mo Own
    Hs Op Pos Le Ne Hu Hex Pre Mem Agr He Ste Wit Hw Hr Mr Sr Sup Nat.
  exact (wrappable_aux2_h e0 e past l u utp wtp accounts more signers extra n recipient source owner mu mw ts tr te w a esc H C Tw Tu eq_refl eq_refl eq_refl D1 D2 D3 Hk Hex Pre Mem Agr Mo
    We Wr Ws Ww Own Hw Hr Mr Sr Hs Op Pos Le Ne Hu He Ste Wit Sup Nat).
Qed.
Print Assumptions C70_wrappable.

(** C70: and whoever holds wrapped tokens can redeem them, as in C19, if the hook agrees to the escrow's transfer. *)
Theorem C70_redeemable : forall e0 e past l u utp wtp accounts more signers n recipient source owner mu ts tr,
  history e0 past l -> ever (no_permanent_delegate u) past l -> same_curve e0 e -> spl_or_t22 wtp -> spl_or_t22 utp ->
  let w := wrapped_mint_of e u wtp in let a := authority_of e w in let esc := escrow_of e u utp wtp in
  derivable e (wrapped_mint_seeds u wtp) tw_id -> derivable e (wrapped_mint_authority_seeds w) tw_id -> derivable e (ata_seeds a u utp) ata_id ->
  map i_key accounts = [esc; recipient; a; u; wtp; utp; source; w; owner] ++ more ->
  writable accounts esc -> writable accounts recipient -> writable accounts source -> writable accounts w ->
  e_multisig e l owner (skipn 9 accounts) = Ok signers -> incl signers more -> owner_acts accounts l wtp owner signers ->
  holder l wtp w source owner ts -> 0 < n -> n <= t_amount ts ->
  unpaused l utp u mu ->
  (* once the wrapped tokens are burned, the transfer helper finds what the hook asks for, and the hook agrees *)
  (forall burnt, (forall k, k <> source -> k <> w -> burnt k = l k) -> transfer_served e accounts burnt mu n esc u recipient a []) ->
  can_receive e l utp u recipient mu tr -> recipient <> esc -> open_account l esc ->
  (native_mint u -> lamports l recipient + lamports l esc < two64) ->
  exists l', succeeds e accounts (Unwrap n) l l'.
Proof.
  intros e0 e past l u utp wtp accounts more signers n recipient source owner mu ts tr H NP C Tw Tu w a esc D1 D2 D3 Hk We Wr Ws Ww Hms Hin Own Ho P1 P2 Hu Srv Ca Ne Op Nat.
  exact (redeem_aux2_h e0 e past l u utp wtp accounts more signers n recipient source owner mu ts tr w a esc H NP C Tw Tu eq_refl eq_refl eq_refl D1 D2 D3 Hk Hms Hin Srv
    We Wr Ws Ww Own Ho P1 P2 Hu Ca Ne Op Nat).
Qed.
Print Assumptions C70_redeemable.

Lemma walk_aux_h e0 e past acts l l' u utp wtp accounts more signers q recipient k mu t tr w a esc :
  history e0 past l -> course e0 acts l l' -> throughout (no_permanent_delegate u) past acts l l' ->
  same_curve e0 e -> spl_or_t22 wtp -> spl_or_t22 utp ->
  w = wrapped_mint_of e u wtp -> a = authority_of e w -> esc = escrow_of e u utp wtp ->
  derivable e (wrapped_mint_seeds u wtp) tw_id -> derivable e (wrapped_mint_authority_seeds w) tw_id -> derivable e (ata_seeds a u utp) ata_id ->
  holder l wtp w k (t_owner t) t -> not_escrow e0 k -> t_owner t <> system_id -> t_owner t <> incinerator_id ->
  left_alone acts wtp l t -> (wtp = t22_id \/ forall b x, In (b, x) acts -> hooks_spare b k) ->
  0 < q -> q <= t_amount t -> q < two64 ->
  map i_key accounts = [esc; recipient; a; u; wtp; utp; k; w; t_owner t] ++ more ->
  writable accounts esc -> writable accounts recipient -> writable accounts k -> writable accounts w ->
  e_multisig e l' (t_owner t) (skipn 9 accounts) = Ok signers -> incl signers more -> owner_acts accounts l' wtp (t_owner t) signers ->
  unpaused l' utp u mu ->
  (forall burnt, (forall x, x <> k -> x <> w -> burnt x = l' x) -> transfer_served e accounts burnt mu q esc u recipient a []) ->
  can_receive e l' utp u recipient mu tr -> recipient <> esc -> open_account l' esc ->
  (native_mint u -> lamports l' recipient + lamports l' esc < two64) ->
  exists l'' fee, succeeds e accounts (Unwrap q) l' l'' /\ fee_for mu (e_epoch e) q fee /\ fee <= q /\
    t_amount t <= balance l' k /\ balance l'' recipient = balance l' recipient + (q - fee) /\
    (hook_cannot_reach mu accounts l' k -> balance l'' k + q = balance l' k).
Proof.
  intros H C TH SC Tw Tu Ew Ea Ee D1 D2 D3 (TA & Mt & _ & St & Dl & Cg) NE N1 N2 (Lo & Ld & Lc & Lf) Sp Q0 Q1 Q2 Ek We Wr Wk Ww Ms Inc Ac Up Srv Cr Ne Op Nat.
  assert (R : reachable e0 l) by (exists past; exact H).
  assert (Ew0 : wrapped_mint_of e0 u wtp = w) by (rewrite Ew; exact (wrapped_mint_of_curve e0 e u wtp SC)).
  rewrite <- Ew0 in Mt.
  destruct (C62_undisturbed e0 acts l l' u wtp k t R C Tw TA Mt NE N1 N2 Sp Lo Ld Lc) as (t' & TA' & Mt' & Ow' & Cl' & Dl' & Am' & _ & Cg' & _ & St').
  assert (Hm : exists m, mint_account l (t_mint t) wtp m).
  { rewrite Mt. apply (held_mint e0 l u wtp k t (reachable_inv _ _ R) Tw TA Mt). lia. }
  assert (St1 : t_state t' = t_state t).
  { apply St'. destruct Hm as [m Hm]. exists m. split; [exact Hm|]. intros f Ef. exact (Lf m f Hm Ef). }
  destruct (course_ever _ _ _ _ _ _ C H TH) as (past' & H' & EV').
  assert (HO : holder l' wtp w k (t_owner t) t').
  { split; [exact TA'|]. split; [rewrite Mt', Mt; exact Ew0|]. split; [exact Ow'|]. split; [rewrite St1; exact St|].
    split; [destruct Dl' as [X|X]; rewrite X; [exact Dl|discriminate]|]. rewrite Cg'. exact Cg. }
  destruct (redeem_aux2_h e0 e past' l' u utp wtp accounts more signers q recipient k (t_owner t) mu t' tr w a esc
    H' EV' SC Tw Tu Ew Ea Ee D1 D2 D3 Ek Ms Inc Srv We Wr Wk Ww Ac HO Q0 (N.le_trans _ _ _ Q1 Am') Up Cr Ne Op Nat) as [l'' S].
  assert (KA : keys_are accounts [esc; recipient; a; u; wtp; utp; k; w; t_owner t]) by (exists more; exact Ek).
  destruct (C15_unwrap _ _ _ _ _ _ _ _ _ _ _ _ _ _ Q2 KA S Ne)
    as (mu' & mw & ts & te & tr0 & fee & ts' & te' & tr' & _ & (Mu' & _ & Ts & _ & _ & _ & Tr & _) & (_ & Fee & Fle & Qle & _) & _ & _ & (Lr & Ar & _) & Lk & (Ak & _) & _).
  destruct Up as (Up1 & _). assert (mu' = mu). { destruct Up1 as (_ & Up1). destruct Up1 as [Up1 _]. destruct Mu' as [Mu' _]. rewrite Up1 in Mu'. now inversion Mu'. }
  subst mu'.
  assert (ts = t'). { destruct Ts as (_ & Ts & _). destruct TA' as (_ & TA' & _). rewrite TA' in Ts. now inversion Ts. } subst ts.
  exists l'', fee. split; [exact S|]. split; [exact Fee|]. split; [exact Fle|].
  unfold balance. destruct TA' as (_ & Dk & _). destruct Tr as (_ & Dr & _). rewrite Dk, Dr, Lr. cbn [a_data]. split; [exact Am'|]. split; [exact Ar|].
  intro HR. rewrite (Lk HR). cbn [a_data]. lia.
Qed.
(** C70: the guarantee for those who walk away (C63) likewise: whatever the others and any hook programs did in the
    meantime, tokens left alone can be exchanged back if the mint's present hook agrees. *)
Theorem C70_walk_away : forall e0 e past acts l l' u utp wtp accounts more signers q recipient k mu t tr,
  history e0 past l -> course e0 acts l l' -> throughout (no_permanent_delegate u) past acts l l' ->
  same_curve e0 e -> spl_or_t22 wtp -> spl_or_t22 utp ->
  let w := wrapped_mint_of e u wtp in let a := authority_of e w in let esc := escrow_of e u utp wtp in
  derivable e (wrapped_mint_seeds u wtp) tw_id -> derivable e (wrapped_mint_authority_seeds w) tw_id -> derivable e (ata_seeds a u utp) ata_id ->
  holder l wtp w k (t_owner t) t -> not_escrow e0 k -> t_owner t <> system_id -> t_owner t <> incinerator_id ->
  left_alone acts wtp l t -> (wtp = t22_id \/ forall b x, In (b, x) acts -> hooks_spare b k) ->
  0 < q -> q <= t_amount t -> q < two64 ->
  map i_key accounts = [esc; recipient; a; u; wtp; utp; k; w; t_owner t] ++ more ->
  writable accounts esc -> writable accounts recipient -> writable accounts k -> writable accounts w ->
  e_multisig e l' (t_owner t) (skipn 9 accounts) = Ok signers -> incl signers more -> owner_acts accounts l' wtp (t_owner t) signers ->
  unpaused l' utp u mu ->
  (forall burnt, (forall x, x <> k -> x <> w -> burnt x = l' x) -> transfer_served e accounts burnt mu q esc u recipient a []) ->
  can_receive e l' utp u recipient mu tr -> recipient <> esc -> open_account l' esc ->
  (native_mint u -> lamports l' recipient + lamports l' esc < two64) ->
  exists l'' fee, succeeds e accounts (Unwrap q) l' l'' /\ fee_for mu (e_epoch e) q fee /\ fee <= q /\
    t_amount t <= balance l' k /\ balance l'' recipient = balance l' recipient + (q - fee) /\
    (hook_cannot_reach mu accounts l' k -> balance l'' k + q = balance l' k).
Proof.
  intros e0 e past acts l l' u utp wtp accounts more signers q recipient k mu t tr H C TH SC Tw Tu w a esc.
  exact (walk_aux_h e0 e past acts l l' u utp wtp accounts more signers q recipient k mu t tr w a esc H C TH SC Tw Tu eq_refl eq_refl eq_refl).
Qed.
Print Assumptions C70_walk_away.

(** ** The repository's counter program as the hook *)
Lemma counter_execute four mc mq mv k1 k2 k3 k4 : map i_key four = [k1; k2; k3; k4] -> execute_accounts (four ++ [mc; mq; mv]) = four ++ [mv; mc].
Proof.
  intro K. destruct four as [|a [|b [|c [|d [|x r]]]]]; try discriminate K. reflexivity.
Qed.
Lemma counter_key four mv mc k1 k2 k3 k4 : map i_key four = [k1; k2; k3; k4] -> map i_key (four ++ [mv; mc]) = [k1; k2; k3; k4; i_key mv; i_key mc].
Proof. intro K. rewrite map_app, K. reflexivity. Qed.
Lemma counter_sixth four mc mq mv k1 k2 k3 k4 : map i_key four = [k1; k2; k3; k4] -> nth_error (map i_key (execute_accounts (four ++ [mc; mq; mv]))) 5 = Some (i_key mc).
Proof. intro K. rewrite (counter_execute four mc mq mv k1 k2 k3 k4 K), (counter_key four mv mc k1 k2 k3 k4 K). reflexivity. Qed.
Lemma counter_writable four mc mq mv : is_wr (four ++ [mv; mc]) (i_key mc) = true -> writable (four ++ [mc; mq; mv]) (i_key mc).
Proof.
  intro H. apply is_wr_In in H. destruct H as (i & Hi & E & W). exists i. split; [|split; assumption].
  apply in_app_or in Hi. apply in_or_app. destruct Hi as [Hi|Hi]; [left; exact Hi|]. right. cbn in Hi |- *. tauto.
Qed.
Lemma counter_call e p four mc mq mv n l l' k1 k2 k3 k4 :
  runs_test_hook e p (i_key mc) -> map i_key four = [k1; k2; k3; k4] -> e_hook e p (four ++ [mc; mq; mv]) n l = Ok l' ->
  writable (four ++ [mc; mq; mv]) (i_key mc) /\
  exists b rest, b < 255 /\ a_data (l (i_key mc)) = DRaw (b :: rest) /\ a_owner (l (i_key mc)) = p /\
    l' = upd l (i_key mc) (with_data (DRaw (b + 1 :: rest)) (l (i_key mc))).
Proof.
  intros R K H. rewrite (R _ n l (counter_sixth four mc mq mv k1 k2 k3 k4 K)) in H. rewrite (counter_execute four mc mq mv k1 k2 k3 k4 K) in H. unfold test_hook in H.
  rewrite (counter_key four mv mc k1 k2 k3 k4 K) in H. destruct (a_data (l (i_key mc))) as [[|b rest]| | | | |] eqn:D; try discriminate H.
  apply bind_ok in H. destruct H as ([] & G1 & H). apply guard_ok, N.ltb_lt in G1.
  apply bind_ok in H. destruct H as ([] & G2 & H). apply guard_ok in G2.
  apply bind_ok in H. destruct H as ([] & G3 & H). apply guard_ok, pk_eqb_eq in G3.
  injection H as <-. split; [exact (counter_writable four mc mq mv G2)|]. exists b, rest. split; [lia|]. split; [reflexivity|]. split; [exact G3|reflexivity].
Qed.

(** C70: with the repository's counter program as the hook, every successful Wrap counts by exactly one, and changes nothing
    else outside the wrap's own accounts; at 255 nothing can be wrapped any more. *)
Theorem C70_wrap_counted : forall e accounts n l r w a up wp s u esc ta mu p counter program validation,
  n < two64 -> keys_are accounts [r; w; a; up; wp; s; u; esc; ta] -> s <> esc -> mint_data l u mu -> ext_hook mu = Some p ->
  runs_test_hook e p (i_key counter) -> ~ spl_or_t22 p -> p <> tw_id ->
  e_extra e l accounts (skipn 9 accounts) = Ok [counter; program; validation] ->
  let c := i_key counter in ~ In c [r; w; s; esc] -> is_tw_pda c = false ->
  (forall l', succeeds e accounts (Wrap n) l l' ->
     exists b rest, b < 255 /\ a_data (l c) = DRaw (b :: rest) /\ l' c = mkAcc (lamports l c) (DRaw (b + 1 :: rest)) p /\
       forall k, ~ In k [r; w; s; esc; c] -> l' k = l k) /\
  (forall rest, a_data (l c) = DRaw (255 :: rest) -> ~ exists l', succeeds e accounts (Wrap n) l l').
Proof.
  intros e accounts n l r w a up wp s u esc ta mu p counter program validation Hn Hk Hse Mu Hh R Np Nt Hex c Nc Pc.
  assert (MAIN : forall l', succeeds e accounts (Wrap n) l l' ->
     exists b rest, b < 255 /\ a_data (l c) = DRaw (b :: rest) /\ l' c = mkAcc (lamports l c) (DRaw (b + 1 :: rest)) p /\
       forall k, ~ In k [r; w; s; esc; c] -> l' k = l k).
  { intros l' H.
    destruct (C70_wrap_calls_once e accounts n l l' r w a up wp s u esc ta mu p Hn Hk H Hse Mu Hh) as (four & extra & before & after & X1 & K & _ & _ & C & (_ & _ & F) & G).
    rewrite Hex in X1. injection X1 as <-.
    destruct (counter_call e p four counter program validation n before after s u esc ta R K C) as (W & b & rest & B & D & O & E). fold c in W, D, O, E.
    assert (Cn : c <> s /\ c <> esc /\ c <> r /\ c <> w) by (repeat split; intro X; apply Nc; rewrite X; cbn; tauto). destruct Cn as (N1 & N2 & N3 & N4).
    rewrite (F c N1 N2) in D, O, E. exists b, rest. split; [exact B|]. split; [exact D|].
    assert (Nsp : p <> spl_token_id /\ p <> t22_id) by (split; intro X; apply Np; [left|right]; exact X). destruct Nsp as [_ Nt2].
    split.
    - destruct (G c N1 N2 N3 N4) as [G1 _]. rewrite G1; [|exact W|rewrite O; exact Nt2|rewrite O; exact Nt|exact Pc].
      rewrite E. rewrite upd_same. unfold with_data, lamports. rewrite O. reflexivity.
    - intros k Nk. assert (Kn : k <> s /\ k <> esc /\ k <> r /\ k <> w /\ k <> c) by (repeat split; intro X; apply Nk; rewrite X; cbn; tauto). destruct Kn as (M1 & M2 & M3 & M4 & M5).
      destruct (G k M1 M2 M3 M4) as [G1 G2].
      destruct (is_wr (four ++ [counter; program; validation]) k) eqn:Wk.
      2:{ apply G2. left. intro X. apply writable_is_wr in X. rewrite Wk in X. discriminate X. }
      destruct (hook_may l k) eqn:Hm.
      + assert (Hm' : ~ (a_owner (l k) = t22_id \/ a_owner (l k) = tw_id \/ is_tw_pda k = true)).
        { intro X. apply hook_may_false in X. rewrite Hm in X. discriminate X. }
        rewrite G1; [|apply writable_is_wr; exact Wk|tauto|tauto|apply not_true_is_false; tauto].
        rewrite E. rewrite upd_other by congruence. exact (F k M1 M2).
      + apply G2. right. apply hook_may_false. exact Hm. }
  split; [exact MAIN|]. intros rest D (l' & H). destruct (MAIN l' H) as (b & rest' & B & D' & _). rewrite D in D'. injection D' as <- _. lia.
Qed.
Print Assumptions C70_wrap_counted.

(** Likewise every successful Unwrap. *)
Theorem C70_unwrap_counted : forall e accounts n l esc r a u wp up s w ta mu p counter program validation,
  n < two64 -> keys_are accounts [esc; r; a; u; wp; up; s; w; ta] -> r <> esc -> mint_data l u mu -> ext_hook mu = Some p ->
  runs_test_hook e p (i_key counter) -> ~ spl_or_t22 p -> p <> tw_id ->
  (forall burnt, (forall k, k <> s -> k <> w -> burnt k = l k) -> e_extra e burnt accounts (skipn 9 accounts) = Ok [counter; program; validation]) ->
  let c := i_key counter in ~ In c [r; w; s; esc] -> is_tw_pda c = false ->
  (forall l', succeeds e accounts (Unwrap n) l l' ->
     exists b rest, b < 255 /\ a_data (l c) = DRaw (b :: rest) /\ l' c = mkAcc (lamports l c) (DRaw (b + 1 :: rest)) p /\
       forall k, ~ In k [r; w; s; esc; c] -> l' k = l k) /\
  (forall rest, a_data (l c) = DRaw (255 :: rest) -> ~ exists l', succeeds e accounts (Unwrap n) l l').
Proof.
  intros e accounts n l esc r a u wp up s w ta mu p counter program validation Hn Hk Hne Mu Hh R Np Nt Hex c Nc Pc.
  assert (MAIN : forall l', succeeds e accounts (Unwrap n) l l' ->
     exists b rest, b < 255 /\ a_data (l c) = DRaw (b :: rest) /\ l' c = mkAcc (lamports l c) (DRaw (b + 1 :: rest)) p /\
       forall k, ~ In k [r; w; s; esc; c] -> l' k = l k).
  { intros l' H.
    destruct (C70_unwrap_calls_once e accounts n l l' esc r a u wp up s w ta mu p Hn Hk H Hne Mu Hh) as (burnt & four & extra & before & after & Bu & _ & _ & X1 & K & _ & _ & C & (_ & _ & F) & G).
    rewrite (Hex burnt Bu) in X1. injection X1 as <-.
    destruct (counter_call e p four counter program validation n before after esc u r a R K C) as (W & b & rest & B & D & O & E). fold c in W, D, O, E.
    assert (Cn : c <> s /\ c <> esc /\ c <> r /\ c <> w) by (repeat split; intro X; apply Nc; rewrite X; cbn; tauto). destruct Cn as (N1 & N2 & N3 & N4).
    rewrite (F c N2 N3), (Bu c N1 N4) in D, O, E. exists b, rest. split; [exact B|]. split; [exact D|].
    assert (Nt2 : p <> t22_id) by (intro X; apply Np; right; exact X).
    split.
    - destruct (G c N2 N3) as [G1 _]. rewrite G1; [|exact W|rewrite O; exact Nt2|rewrite O; exact Nt|exact Pc].
      rewrite E. rewrite upd_same. unfold with_data, lamports. rewrite O. reflexivity.
    - intros k Nk. assert (Kn : k <> s /\ k <> esc /\ k <> r /\ k <> w /\ k <> c) by (repeat split; intro X; apply Nk; rewrite X; cbn; tauto). destruct Kn as (M1 & M2 & M3 & M4 & M5).
      destruct (G k M2 M3) as [G1 G2]. rewrite <- (Bu k M1 M4).
      destruct (is_wr (four ++ [counter; program; validation]) k) eqn:Wk.
      2:{ apply G2. left. intro X. apply writable_is_wr in X. rewrite Wk in X. discriminate X. }
      destruct (hook_may l k) eqn:Hm.
      + assert (Hm' : ~ (a_owner (l k) = t22_id \/ a_owner (l k) = tw_id \/ is_tw_pda k = true)).
        { intro X. apply hook_may_false in X. rewrite Hm in X. discriminate X. }
        rewrite G1; [|apply writable_is_wr; exact Wk|tauto|tauto|apply not_true_is_false; tauto].
        rewrite E. rewrite upd_other by congruence. exact (F k M2 M3).
      + apply G2. right. apply hook_may_false. exact Hm. }
  split; [exact MAIN|]. intros rest D (l' & H). destruct (MAIN l' H) as (b & rest' & B & D' & _). rewrite D in D'. injection D' as <- _. lia.
Qed.
Print Assumptions C70_unwrap_counted.

(** The counter program agrees as long as it can count. *)
Theorem C70_counter_agrees : forall e m n l src mnt dst auth p counter program validation b rest spared,
  runs_test_hook e p (i_key counter) -> ext_hook m = Some p -> i_writable counter = true ->
  let c := i_key counter in c <> src -> c <> dst -> a_owner (l c) = p -> a_data (l c) = DRaw (b :: rest) -> b < 255 -> ~ In c spared ->
  hook_agrees e m n l src mnt dst auth [counter; program; validation] spared.
Proof.
  intros e m n l src mnt dst auth p counter program validation b rest spared R Hh Wc c N1 N2 O D B Sp q Hq four l1 K F.
  rewrite Hh in Hq. injection Hq as <-. rewrite (R _ n l1 (counter_sixth four counter program validation src mnt dst auth K)). rewrite (counter_execute four counter program validation src mnt dst auth K). unfold test_hook.
  rewrite (counter_key four validation counter src mnt dst auth K). fold c. rewrite (F c N1 N2), D.
  rewrite bind_guard_true by (apply N.ltb_lt; lia).
  rewrite bind_guard_true. 2:{ apply is_wr_In. exists counter. split; [apply in_or_app; right; right; left; reflexivity|]. split; [reflexivity|exact Wc]. }
  rewrite bind_guard_true by (apply pk_eqb_eq; exact O).
  eexists. split; [reflexivity|]. split.
  - intro k. destruct (pk_dec c k) as [<-|X]; [rewrite upd_same; rewrite (F c N1 N2); reflexivity|rewrite upd_other by exact X; reflexivity].
  - intros k Hk. rewrite upd_other; [reflexivity|]. intro X. apply Sp. rewrite X. exact Hk.
Qed.
Print Assumptions C70_counter_agrees.

(** ** The hypotheses are met: a mint whose hook is the counter program; Alice wraps 40 tokens and redeems 15. *)
Definition d_hook : pubkey := PkRaw 700.
Definition d_counter : pubkey := PkRaw 701.
Definition d_validation : pubkey := PkRaw 702.
Definition counter_hook (p : pubkey) (ms : list info) (l : ledger) : res ledger :=
  if pk_eqb p d_hook
  then match nth_error (map i_key (execute_accounts ms)) 5 with
       | Some c => if pk_eqb c d_counter then test_hook p (execute_accounts ms) l else Err EPanic
       | None => Err EPanic
       end
  else Ok l.
Definition hook_env : env :=
  mkEnv (fun _ _ => true) (fun n => n * 10) 5 false
        (fun p ms _ l => counter_hook p ms l) (fun _ _ more => Ok (map (fun i => mkInfo (i_key i) false (i_writable i)) more)) (fun _ _ _ => Ok [])
        (fun _ l _ => Ok l) (fun _ _ _ => Ok None) (fun _ _ => true) (fun s => str_len s)
        (fun b => PkRaw (1000 + from_le b)) (fun _ => true) 100 None
        (fun _ => ""%string) (fun _ => ""%string) (fun _ => ""%string) (fun _ => ""%string) (fun _ => ""%string)
        (fun _ => ""%string) (fun _ => ""%string)
        (fun _ => None) (fun _ => None) (fun _ => None).
Lemma hook_env_runs : runs_test_hook hook_env d_hook d_counter.
Proof. intros ms n l E. cbn [hook_env e_hook]. unfold counter_hook. rewrite pk_eqb_refl, E, pk_eqb_refl. reflexivity. Qed.
Lemma hook_env_lawful : lawful demo_env hook_env.
Proof.
  split; [intros s p; reflexivity|]. intros p ms n l l' H. cbn [hook_env e_hook] in H. unfold counter_hook in H.
  assert (ID : forall lx, world_change lx (confine ms (hook_may lx) lx lx)).
  { intros lx k. assert (E : confine ms (hook_may lx) lx lx k = lx k) by (unfold confine; destruct (_ && _); reflexivity). rewrite E. repeat split; auto; try lia; intros; try contradiction. }
  destruct (pk_eqb p d_hook) eqn:Ep; [|injection H as <-; eapply fs_world; [apply ID|apply fs_none]]. apply pk_eqb_eq in Ep.
  destruct (nth_error (map i_key (execute_accounts ms)) 5) as [c|] eqn:Ec; [|discriminate H].
  destruct (pk_eqb c d_counter) eqn:Ecc; [|discriminate H]. apply pk_eqb_eq in Ecc. unfold test_hook in H.
  destruct (map i_key (execute_accounts ms)) as [|k1 [|k2 [|k3 [|k4 [|k5 [|k6 r]]]]]]; try discriminate H. cbn in Ec. injection Ec as ->. rewrite Ecc in H.
  destruct (a_data (l d_counter)) as [[|b rest]| | | | |] eqn:D; try discriminate H.
  apply bind_ok in H. destruct H as ([] & _ & H). apply bind_ok in H. destruct H as ([] & _ & H).
  apply bind_ok in H. destruct H as ([] & G & H). apply guard_ok, pk_eqb_eq in G. injection H as <-. rewrite Ep in G.
  eapply fs_world; [|apply fs_none].
  assert (W : world_change l (upd l d_counter (with_data (DRaw (b + 1 :: rest)) (l d_counter)))).
  { apply world_upd; [rewrite G; intros [X|[X|X]]; discriminate X|intros [X|X]; discriminate X|intros [X|X]; discriminate X|].
    cbn [with_data a_owner]. rewrite G. intros [X|[X|X]]; discriminate X. }
  intro k. unfold confine. destruct (is_wr ms k && hook_may l k); [exact (W k)|].
  repeat split; auto; try lia; intros; try contradiction.
Qed.
Definition hook_story : list cmd :=
  [ CFund d_alice 5000; CFund (d_w spl_token_id) 4000; CFund (d_b spl_token_id) 4000;
    CAlloc d_counter 1 1000 d_hook;
    CAlloc d_u (mint_space [MxTransferHook None (Some d_hook)]) 9000 t22_id;
    CTok t22_id [meta_w d_u false] (TiInitExt (MxTransferHook None (Some d_hook)));
    CTok t22_id [meta_w d_u false] (TiInitializeMint2 6 d_mintauth None);
    CTw x_create; CFund (d_esc t22_id spl_token_id) 5000;
    CAta t22_id (d_a spl_token_id) d_u;
    CAlloc d_alice_u (tok_space [AxTransferHookAccount]) 5000 t22_id; CAlloc d_alice_w 165 5000 spl_token_id;
    CTok t22_id [meta_w d_alice_u false; meta_r d_u false] (TiInitializeAccount d_alice false);
    CTok spl_token_id [meta_w d_alice_w false; meta_r (d_w spl_token_id) false] (TiInitializeAccount d_alice false);
    CTok t22_id [meta_w d_u false; meta_w d_alice_u false; meta_r d_mintauth true] (TiMintTo 1000) ].
Definition hook_metas : list info := [meta_w d_counter false; meta_r d_hook false; meta_r d_validation false].
Definition hook_accounts (i : tw_instruction) : list info := tx_metas i ++ hook_metas.
Lemma hook_history : history demo_env (past_of hook_story) (now_of hook_story).
Proof. apply played_history. vm_compute. reflexivity. Qed.
Lemma hook_derivable s p : derivable hook_env s p.
Proof. exact (demo_derivable s p). Qed.
Lemma hook_no_pd : ever (no_permanent_delegate d_u) (past_of hook_story) (now_of hook_story).
Proof.
  assert (H : forallb (fun x => match a_data (x d_u) with DMint m => match ext_permanent_delegate m with None => true | Some _ => false end | _ => true end)
                (now_of hook_story :: past_of hook_story) = true) by (vm_compute; reflexivity).
  rewrite forallb_forall in H. intros x Hx m (_ & D & _). specialize (H x Hx). rewrite D in H. destruct (ext_permanent_delegate m); [discriminate H|reflexivity].
Qed.
Lemma hook_presented (i : tw_instruction) : presented (hook_accounts i) d_u hook_metas.
Proof.
  intros j Hj. assert (J : In j (hook_accounts i)) by (apply in_or_app; right; exact Hj).
  split; [apply in_map; exact J|]. split; [intro W; split; [exists j; split; [exact J|split; [reflexivity|exact W]]|]|intro S; exists j; split; [exact J|split; [reflexivity|exact S]]].
  destruct Hj as [<-|[<-|[<-|[]]]]; discriminate.
Qed.
Example C70_wrappable_nonvacuous : exists l', succeeds hook_env (hook_accounts (x_wrap 40)) (Wrap 40) (now_of hook_story) l'.
Proof.
  assert (S : exists ts, a_data (now_of hook_story d_alice_u) = DTok ts) by (eexists; vm_compute; reflexivity). destruct S as [ts Hs].
  assert (R : exists tr, a_data (now_of hook_story d_alice_w) = DTok tr) by (eexists; vm_compute; reflexivity). destruct R as [tr Hr].
  assert (E : exists te, a_data (now_of hook_story (d_esc t22_id spl_token_id)) = DTok te) by (eexists; vm_compute; reflexivity). destruct E as [te He].
  assert (M : exists mu, a_data (now_of hook_story d_u) = DMint mu) by (eexists; vm_compute; reflexivity). destruct M as [mu Hm].
  assert (W : exists mw, a_data (now_of hook_story (d_w spl_token_id)) = DMint mw) by (eexists; vm_compute; reflexivity). destruct W as [mw Hw].
  apply (C70_wrappable demo_env hook_env (past_of hook_story) (now_of hook_story) d_u t22_id spl_token_id (hook_accounts (x_wrap 40)) [d_counter; d_hook; d_validation] [] hook_metas 40
           d_alice_w d_alice_u d_alice mu mw ts tr te).
  - exact hook_history.
  - exact (proj1 hook_env_lawful).
  - left; reflexivity.
  - right; reflexivity.
  - apply hook_derivable.
  - apply hook_derivable.
  - apply hook_derivable.
  - vm_compute. reflexivity.
  - apply in_writable. vm_compute. reflexivity.
  - apply in_writable. vm_compute. reflexivity.
  - apply in_writable. vm_compute. reflexivity.
  - apply in_writable. vm_compute. reflexivity.
  - intros m X. exfalso. vm_compute in X. discriminate X.
  - left. split; [reflexivity|]. split; [|intros m X; exfalso; vm_compute in X; discriminate X].
    exists (meta_r d_alice true). split; [do 8 right; left; reflexivity|split; reflexivity].
  - revert Hs. vm_compute. intro X. inversion X; subst ts. repeat split; auto; discriminate.
  - intros t X. change (a_data (now_of hook_story d_alice_u) = DTok t) in X. rewrite Hs in X. inversion X; subst t. clear X. revert Hs. vm_compute. intro X. inversion X; subst ts. split; [reflexivity|intros [X0|[]]; discriminate X0].
  - lia.
  - revert Hs. vm_compute. intro X. inversion X; subst ts. discriminate.
  - vm_compute. discriminate.
  - revert Hm. vm_compute. intro X. inversion X; subst mu. repeat split; auto; intros; discriminate.
  - reflexivity.
  - exact (hook_presented (x_wrap 40)).
  - split; [intros k []|]. intros m i X. exfalso. vm_compute in X. discriminate X.
  - apply (C70_counter_agrees hook_env mu 40 (now_of hook_story) d_alice_u d_u (escrow_of hook_env d_u t22_id spl_token_id) d_alice d_hook (meta_w d_counter false) (meta_r d_hook false) (meta_r d_validation false) 0 []).
    + exact hook_env_runs.
    + revert Hm. vm_compute. intro X. inversion X; subst mu. reflexivity.
    + reflexivity.
    + discriminate.
    + vm_compute. discriminate.
    + vm_compute. reflexivity.
    + vm_compute. reflexivity.
    + lia.
    + intros [X|[]]. discriminate X.
  - revert He. vm_compute. intro X. inversion X; subst te. repeat split; auto; discriminate.
  - revert He. vm_compute. intro X. inversion X; subst te. reflexivity.
  - revert Hm. vm_compute. intro Y. inversion Y; subst mu. intro Z. exfalso. apply Z. reflexivity.
  - revert Hw. vm_compute. intro X. inversion X; subst mw. repeat split; auto; discriminate.
  - revert Hr. vm_compute. intro X. inversion X; subst tr. repeat split; auto; discriminate.
  - revert Hr. vm_compute. intro X. inversion X; subst tr. reflexivity.
  - revert Hr. vm_compute. intro X. inversion X; subst tr. reflexivity.
  - left. exact hook_no_pd.
  - intros [X|X]; exfalso; vm_compute in X; discriminate X.
Qed.
(** The wrap is made, and counted. *)
Definition hooked : ledger :=
  match process_instruction hook_env (mkCtx tw_id (hook_accounts (x_wrap 40))) (pack (Wrap 40)) (now_of hook_story) with Ok l => l | Err _ => now_of hook_story end.
Lemma hooked_ok : succeeds hook_env (hook_accounts (x_wrap 40)) (Wrap 40) (now_of hook_story) hooked.
Proof. destruct C70_wrappable_nonvacuous as [l' H]. unfold hooked. unfold succeeds, outcome in *. rewrite H. reflexivity. Qed.
Lemma hooked_history : history demo_env (now_of hook_story :: past_of hook_story) hooked.
Proof.
  refine (h_step demo_env _ _ (ATokenWrap hook_env (hook_accounts (x_wrap 40)) (pack (Wrap 40))) _ hook_history _).
  constructor; [exact hook_env_lawful|apply unsignedb_true; vm_compute; reflexivity|exact hooked_ok].
Qed.
Example C70_wrap_counted_nonvacuous :
  a_data (now_of hook_story d_counter) = DRaw [0] /\ hooked d_counter = mkAcc 1000 (DRaw [1]) d_hook /\
  balance hooked d_alice_u = 960 /\ balance hooked (d_esc t22_id spl_token_id) = 40 /\ balance hooked d_alice_w = 40 /\
  forall k, ~ In k [d_alice_w; d_w spl_token_id; d_alice_u; d_esc t22_id spl_token_id; d_counter] -> hooked k = now_of hook_story k.
Proof.
  split; [vm_compute; reflexivity|]. split; [vm_compute; reflexivity|]. split; [vm_compute; reflexivity|]. split; [vm_compute; reflexivity|]. split; [vm_compute; reflexivity|].
  assert (M : exists mu, a_data (now_of hook_story d_u) = DMint mu /\ m_init mu = true /\ ext_hook mu = Some d_hook) by (eexists; vm_compute; repeat split; reflexivity).
  destruct M as (mu & M1 & M2 & M3).
  destruct (C70_wrap_counted hook_env (hook_accounts (x_wrap 40)) 40 (now_of hook_story) d_alice_w (d_w spl_token_id) (d_a spl_token_id) t22_id spl_token_id d_alice_u d_u (d_esc t22_id spl_token_id) d_alice
    mu d_hook (meta_w d_counter false) (meta_r d_hook false) (meta_r d_validation false)) as [A _].
  - reflexivity.
  - exists [d_counter; d_hook; d_validation]. vm_compute. reflexivity.
  - vm_compute. discriminate.
  - split; assumption.
  - exact M3.
  - exact hook_env_runs.
  - intros [X|X]; discriminate X.
  - discriminate.
  - reflexivity.
  - intro X. vm_compute in X. destruct X as [X|[X|[X|[X|[]]]]]; discriminate X.
  - reflexivity.
  - destruct (A hooked hooked_ok) as (b & rest & _ & _ & _ & F). exact F.
Qed.
(** And 15 of them are redeemed, which the hook counts again. *)
Example C70_redeemable_nonvacuous : exists l', succeeds hook_env (hook_accounts (x_unwrap 15)) (Unwrap 15) hooked l'.
Proof.
  assert (S : exists ts, a_data (hooked d_alice_w) = DTok ts) by (eexists; vm_compute; reflexivity). destruct S as [ts Hs].
  assert (R : exists tr, a_data (hooked d_alice_u) = DTok tr) by (eexists; vm_compute; reflexivity). destruct R as [tr Hr].
  assert (E : exists te, a_data (hooked (d_esc t22_id spl_token_id)) = DTok te) by (eexists; vm_compute; reflexivity). destruct E as [te He].
  assert (M : exists mu, a_data (hooked d_u) = DMint mu) by (eexists; vm_compute; reflexivity). destruct M as [mu Hm].
  apply (C70_redeemable demo_env hook_env (now_of hook_story :: past_of hook_story) hooked d_u t22_id spl_token_id (hook_accounts (x_unwrap 15)) [d_counter; d_hook; d_validation] [] 15
           d_alice_u d_alice_w d_alice mu ts tr).
  - exact hooked_history.
  - intros x [<-|Hx]; [|exact (hook_no_pd x Hx)]. intros m (_ & D & _). change (a_data (hooked d_u) = DMint m) in D. rewrite Hm in D. injection D as <-.
    revert Hm. vm_compute. intro X. inversion X; subst mu. reflexivity.
  - exact (proj1 hook_env_lawful).
  - left; reflexivity.
  - right; reflexivity.
  - apply hook_derivable.
  - apply hook_derivable.
  - apply hook_derivable.
  - vm_compute. reflexivity.
  - apply in_writable. vm_compute. reflexivity.
  - apply in_writable. vm_compute. reflexivity.
  - apply in_writable. vm_compute. reflexivity.
  - apply in_writable. vm_compute. reflexivity.
  - reflexivity.
  - intros x [].
  - left. split; [reflexivity|]. split; [|intros m X; exfalso; vm_compute in X; discriminate X].
    exists (meta_r d_alice true). split; [do 8 right; left; reflexivity|split; reflexivity].
  - revert Hs. vm_compute. intro X. inversion X; subst ts. repeat split; auto; discriminate.
  - lia.
  - revert Hs. vm_compute. intro X. inversion X; subst ts. discriminate.
  - revert Hm. vm_compute. intro X. inversion X; subst mu. repeat split; auto; intros; discriminate.
  - intros burnt B. exists hook_metas. split; [reflexivity|]. split; [exact (hook_presented (x_unwrap 15))|].
    assert (C : burnt d_counter = mkAcc 1000 (DRaw [1]) d_hook).
    { rewrite B; [vm_compute; reflexivity|discriminate|vm_compute; discriminate]. }
    apply (C70_counter_agrees hook_env mu 15 burnt (escrow_of hook_env d_u t22_id spl_token_id) d_u d_alice_u (authority_of hook_env (wrapped_mint_of hook_env d_u spl_token_id))
             d_hook (meta_w d_counter false) (meta_r d_hook false) (meta_r d_validation false) 1 []).
    + exact hook_env_runs.
    + revert Hm. vm_compute. intro X. inversion X; subst mu. reflexivity.
    + reflexivity.
    + vm_compute. discriminate.
    + discriminate.
    + cbn [meta_w i_key]. rewrite C. reflexivity.
    + cbn [meta_w i_key]. rewrite C. reflexivity.
    + lia.
    + intros [].
  - revert Hr Hm. vm_compute. intros X Y. inversion X; subst tr. inversion Y; subst mu. repeat split; auto; try discriminate; intro Z; exfalso; apply Z; reflexivity.
  - vm_compute. discriminate.
  - intros t X. change (a_data (hooked (d_esc t22_id spl_token_id)) = DTok t) in X. rewrite He in X. inversion X; subst t. clear X. revert He. vm_compute. intro X. inversion X; subst te. split; [reflexivity|].
    intro Z. destruct Z as [Z|[Z|[]]]; discriminate Z.
  - intros [X|X]; exfalso; vm_compute in X; discriminate X.
Qed.
Definition redeemed : ledger :=
  match process_instruction hook_env (mkCtx tw_id (hook_accounts (x_unwrap 15))) (pack (Unwrap 15)) hooked with Ok l => l | Err _ => hooked end.
Lemma redeemed_ok : succeeds hook_env (hook_accounts (x_unwrap 15)) (Unwrap 15) hooked redeemed.
Proof. destruct C70_redeemable_nonvacuous as [l' H]. unfold redeemed. unfold succeeds, outcome in *. rewrite H. reflexivity. Qed.
Lemma hooked_mint : exists mu, a_data (hooked d_u) = DMint mu /\ m_init mu = true /\ ext_hook mu = Some d_hook.
Proof. eexists; vm_compute; repeat split; reflexivity. Qed.
Example C70_unwrap_counted_nonvacuous :
  redeemed d_counter = mkAcc 1000 (DRaw [2]) d_hook /\ balance redeemed d_alice_u = 975 /\ balance redeemed (d_esc t22_id spl_token_id) = 25 /\ balance redeemed d_alice_w = 25 /\
  (forall k, ~ In k [d_alice_u; d_w spl_token_id; d_alice_w; d_esc t22_id spl_token_id; d_counter] -> redeemed k = hooked k) /\
  (* a counter that is full stops both *)
  let full := upd hooked d_counter (mkAcc 1000 (DRaw [255]) d_hook) in
  (~ exists l', succeeds hook_env (hook_accounts (x_wrap 40)) (Wrap 40) full l') /\
  (~ exists l', succeeds hook_env (hook_accounts (x_unwrap 15)) (Unwrap 15) full l').
Proof.
  split; [vm_compute; reflexivity|]. split; [vm_compute; reflexivity|]. split; [vm_compute; reflexivity|]. split; [vm_compute; reflexivity|].
  destruct hooked_mint as (mu & M1 & M2 & M3).
  assert (U : forall l, a_data (l d_u) = DMint mu ->
    (forall l', succeeds hook_env (hook_accounts (x_unwrap 15)) (Unwrap 15) l l' -> forall k, ~ In k [d_alice_u; d_w spl_token_id; d_alice_w; d_esc t22_id spl_token_id; d_counter] -> l' k = l k) /\
    (a_data (l d_counter) = DRaw [255] -> ~ exists l', succeeds hook_env (hook_accounts (x_unwrap 15)) (Unwrap 15) l l')).
  { intros l Hl.
    destruct (C70_unwrap_counted hook_env (hook_accounts (x_unwrap 15)) 15 l (d_esc t22_id spl_token_id) d_alice_u (d_a spl_token_id) d_u spl_token_id t22_id d_alice_w (d_w spl_token_id) d_alice
      mu d_hook (meta_w d_counter false) (meta_r d_hook false) (meta_r d_validation false)) as [A B].
    - reflexivity.
    - exists [d_counter; d_hook; d_validation]. vm_compute. reflexivity.
    - vm_compute. discriminate.
    - split; assumption.
    - exact M3.
    - exact hook_env_runs.
    - intros [X|X]; discriminate X.
    - discriminate.
    - intros burnt _. reflexivity.
    - intro X. vm_compute in X. destruct X as [X|[X|[X|[X|[]]]]]; discriminate X.
    - reflexivity.
    - split; [|exact (B [])]. intros l' H. destruct (A l' H) as (b & rest & _ & _ & _ & F). exact F. }
  split; [exact (proj1 (U hooked M1) redeemed redeemed_ok)|]. intro full.
  assert (F1 : a_data (full d_u) = DMint mu) by (unfold full; rewrite upd_other by discriminate; exact M1).
  assert (F2 : a_data (full d_counter) = DRaw [255]) by (unfold full; rewrite upd_same; reflexivity).
  split; [|exact (proj2 (U full F1) F2)].
  destruct (C70_wrap_counted hook_env (hook_accounts (x_wrap 40)) 40 full d_alice_w (d_w spl_token_id) (d_a spl_token_id) t22_id spl_token_id d_alice_u d_u (d_esc t22_id spl_token_id) d_alice
    mu d_hook (meta_w d_counter false) (meta_r d_hook false) (meta_r d_validation false)) as [_ B].
  - reflexivity.
  - exists [d_counter; d_hook; d_validation]. vm_compute. reflexivity.
  - vm_compute. discriminate.
  - split; assumption.
  - exact M3.
  - exact hook_env_runs.
  - intros [X|X]; discriminate X.
  - discriminate.
  - reflexivity.
  - intro X. vm_compute in X. destruct X as [X|[X|[X|[X|[]]]]]; discriminate X.
  - reflexivity.
  - exact (B [] F2).
Qed.
Lemma full_refuses ms n l : a_data (l d_counter) = DRaw [255] -> exists err, e_hook hook_env d_hook ms n l = Err err.
Proof.
  intro D. cbn [hook_env e_hook]. unfold counter_hook. rewrite pk_eqb_refl.
  destruct (nth_error (map i_key (execute_accounts ms)) 5) as [c|] eqn:E; [|eexists; reflexivity].
  destruct (pk_eqb c d_counter) eqn:Ec; [|eexists; reflexivity]. apply pk_eqb_eq in Ec. unfold test_hook.
  destruct (map i_key (execute_accounts ms)) as [|k1 [|k2 [|k3 [|k4 [|k5 [|k6 r]]]]]]; try discriminate E. cbn in E. injection E as ->. rewrite Ec, D. eexists. reflexivity.
Qed.
Example C70_refused_nonvacuous :
  let full := upd hooked d_counter (mkAcc 1000 (DRaw [255]) d_hook) in
  (~ exists l', succeeds hook_env (hook_accounts (x_wrap 40)) (Wrap 40) full l') /\
  (~ exists l', succeeds hook_env (hook_accounts (x_unwrap 15)) (Unwrap 15) full l').
Proof.
  intro full. destruct hooked_mint as (mu & M1 & M2 & M3).
  assert (F1 : mint_data full d_u mu) by (split; [unfold full; rewrite upd_other by discriminate; exact M1|exact M2]).
  assert (F2 : a_data (full d_counter) = DRaw [255]) by (unfold full; rewrite upd_same; reflexivity).
  split.
  - destruct (C70_refused hook_env (hook_accounts (x_wrap 40)) 40 full d_alice_w (d_w spl_token_id) (d_a spl_token_id) t22_id spl_token_id d_alice_u d_u (d_esc t22_id spl_token_id) d_alice mu d_hook) as [A _].
    + reflexivity.
    + exists [d_counter; d_hook; d_validation]. vm_compute. reflexivity.
    + exact M3.
    + apply A; [exact F1|vm_compute; discriminate|]. intros four extra l1 _ _ G. apply full_refuses. rewrite G; [exact F2|discriminate|vm_compute; discriminate].
  - destruct (C70_refused hook_env (hook_accounts (x_unwrap 15)) 15 full (d_esc t22_id spl_token_id) d_alice_u (d_a spl_token_id) d_u spl_token_id t22_id d_alice_w (d_w spl_token_id) d_alice mu d_hook) as [_ A].
    + reflexivity.
    + exists [d_counter; d_hook; d_validation]. vm_compute. reflexivity.
    + exact M3.
    + apply A; [exact F1|vm_compute; discriminate|]. intros four extra l1 _ G. apply full_refuses. rewrite G; [exact F2|vm_compute; discriminate|discriminate|discriminate|vm_compute; discriminate].
Qed.

(** Alice walks away; meanwhile 500 more are issued and the counter is driven up to 200; then she redeems 15. *)
Definition issue_500 : list info := [meta_w d_u false; meta_w d_alice_u false; meta_r d_mintauth true].
Definition issued : ledger := match tok_exec hook_env t22_id false issue_500 (TiMintTo 500) hooked with Ok l => l | Err _ => hooked end.
Definition driven_up : ledger := upd issued d_counter (mkAcc 1000 (DRaw [200]) d_hook).
Definition meanwhile : list (action * ledger) := [(ATokenProgram hook_env t22_id false issue_500 (TiMintTo 500), hooked); (AWorld, issued)].
Lemma issued_ok : tok_exec hook_env t22_id false issue_500 (TiMintTo 500) hooked = Ok issued.
Proof.
  assert (K : match tok_exec hook_env t22_id false issue_500 (TiMintTo 500) hooked with Ok _ => true | Err _ => false end = true) by (vm_compute; reflexivity).
  unfold issued. destruct (tok_exec hook_env t22_id false issue_500 (TiMintTo 500) hooked); [reflexivity|discriminate K].
Qed.
Lemma meanwhile_course : course demo_env meanwhile hooked driven_up.
Proof.
  eapply co_step; [apply st_token_program; [exact hook_env_lawful|right; reflexivity|apply unsignedb_true; vm_compute; reflexivity|exact issued_ok]|].
  eapply co_step; [|apply co_end]. constructor. apply world_upd.
  - assert (O : a_owner (issued d_counter) = d_hook) by (vm_compute; reflexivity). rewrite O. intros [X|[X|X]]; discriminate X.
  - intros [X|X]; discriminate X.
  - intros [X|X]; discriminate X.
  - cbn [a_owner]. intros [X|[X|X]]; discriminate X.
Qed.
Lemma hook_spares_alice p ms n l l' : e_hook hook_env p ms n l = Ok l' -> a_data (l' d_alice_w) = a_data (l d_alice_w) /\ a_owner (l' d_alice_w) = a_owner (l d_alice_w).
Proof.
  intro H. cbn [hook_env e_hook] in H. unfold counter_hook in H. destruct (pk_eqb p d_hook); [|injection H as <-; split; reflexivity].
  destruct (nth_error (map i_key (execute_accounts ms)) 5) as [c|] eqn:Ec; [|discriminate H].
  destruct (pk_eqb c d_counter) eqn:Ecc; [|discriminate H]. apply pk_eqb_eq in Ecc. unfold test_hook in H.
  destruct (map i_key (execute_accounts ms)) as [|k1 [|k2 [|k3 [|k4 [|k5 [|k6 r]]]]]]; try discriminate H. cbn in Ec. injection Ec as ->. rewrite Ecc in H.
  destruct (a_data (l d_counter)) as [[|b rest]| | | | |]; try discriminate H.
  apply bind_ok in H. destruct H as ([] & _ & H). apply bind_ok in H. destruct H as ([] & _ & H).
  apply bind_ok in H. destruct H as ([] & _ & H). injection H as <-. rewrite upd_other by discriminate. split; reflexivity.
Qed.
Lemma never_delegated (x : ledger) : (match a_data (x d_u) with DMint m => match ext_permanent_delegate m with None => true | Some _ => false end | _ => true end) = true -> no_permanent_delegate d_u x.
Proof. intros H m (_ & D & _). rewrite D in H. destruct (ext_permanent_delegate m); [discriminate H|reflexivity]. Qed.
Example C70_walk_away_nonvacuous : exists l'' fee,
  balance driven_up d_alice_u = 1460 /\ succeeds hook_env (hook_accounts (x_unwrap 15)) (Unwrap 15) driven_up l'' /\ balance l'' d_alice_u = 1460 + (15 - fee).
Proof.
  assert (S : exists ts, a_data (hooked d_alice_w) = DTok ts) by (eexists; vm_compute; reflexivity). destruct S as [ts Hs].
  assert (R : exists tr, a_data (driven_up d_alice_u) = DTok tr) by (eexists; vm_compute; reflexivity). destruct R as [tr Hr].
  assert (E : exists te, a_data (driven_up (d_esc t22_id spl_token_id)) = DTok te) by (eexists; vm_compute; reflexivity). destruct E as [te He].
  assert (M : exists mu, a_data (driven_up d_u) = DMint mu) by (eexists; vm_compute; reflexivity). destruct M as [mu Hm].
  assert (Ow : t_owner ts = d_alice /\ t_delegate ts = None /\ t_close ts = None /\ t_mint ts = d_w spl_token_id) by (revert Hs; vm_compute; intro X; inversion X; subst ts; repeat split; reflexivity).
  destruct Ow as (Ow & Dl & Cl & Mt).
  assert (B : balance driven_up d_alice_u = 1460) by (vm_compute; reflexivity).
  destruct (C70_walk_away demo_env hook_env (now_of hook_story :: past_of hook_story) meanwhile hooked driven_up d_u t22_id spl_token_id (hook_accounts (x_unwrap 15)) [d_counter; d_hook; d_validation] [] 15
           d_alice_u d_alice_w mu ts tr) as (l'' & fee & R1 & R2 & R3 & R4 & R5 & R6).
  - exact hooked_history.
  - exact meanwhile_course.
  - split; [intros x [<-|Hx]; [apply never_delegated; vm_compute; reflexivity|exact (hook_no_pd x Hx)]|].
    split; [|apply never_delegated; vm_compute; reflexivity].
    intros a x [X|[X|[]]]; apply pair_equal_spec in X; destruct X as [_ <-]; apply never_delegated; vm_compute; reflexivity.
  - exact (proj1 hook_env_lawful).
  - left; reflexivity.
  - right; reflexivity.
  - apply hook_derivable.
  - apply hook_derivable.
  - apply hook_derivable.
  - revert Hs. vm_compute. intro X. inversion X; subst ts. repeat split; auto; discriminate.
  - intros u utp wtp. unfold escrow_of, ata_of, pda. discriminate.
  - rewrite Ow. discriminate.
  - rewrite Ow. discriminate.
  - split; [|split; [rewrite Dl; discriminate|split; [rewrite Cl; discriminate|]]].
    + rewrite Ow. intros a x [X|[X|[]]]; apply pair_equal_spec in X; destruct X as [<- <-]; [|intros []].
      apply not_signed_by; [vm_compute; reflexivity|]. intros m X. exfalso. vm_compute in X. discriminate X.
    + intros m f (_ & X & _) Y. exfalso. rewrite Mt in X. vm_compute in X. inversion X; subst m. discriminate Y.
  - right. intros b x [X|[X|[]]]; apply pair_equal_spec in X; destruct X as [<- _]; [|exact I]. exact hook_spares_alice.
  - lia.
  - revert Hs. vm_compute. intro X. inversion X; subst ts. discriminate.
  - reflexivity.
  - rewrite Ow. vm_compute. reflexivity.
  - apply in_writable. vm_compute. reflexivity.
  - apply in_writable. vm_compute. reflexivity.
  - apply in_writable. vm_compute. reflexivity.
  - apply in_writable. vm_compute. reflexivity.
  - reflexivity.
  - intros x [].
  - rewrite Ow. left. split; [reflexivity|]. split; [|intros m X; exfalso; vm_compute in X; discriminate X].
    exists (meta_r d_alice true). split; [do 8 right; left; reflexivity|split; reflexivity].
  - revert Hm. vm_compute. intro X. inversion X; subst mu. repeat split; auto; intros; discriminate.
  - intros burnt Bu. exists hook_metas. split; [reflexivity|]. split; [exact (hook_presented (x_unwrap 15))|].
    assert (C : burnt d_counter = mkAcc 1000 (DRaw [200]) d_hook).
    { rewrite Bu; [vm_compute; reflexivity|discriminate|vm_compute; discriminate]. }
    apply (C70_counter_agrees hook_env mu 15 burnt (escrow_of hook_env d_u t22_id spl_token_id) d_u d_alice_u (authority_of hook_env (wrapped_mint_of hook_env d_u spl_token_id))
             d_hook (meta_w d_counter false) (meta_r d_hook false) (meta_r d_validation false) 200 []).
    + exact hook_env_runs.
    + revert Hm. vm_compute. intro X. inversion X; subst mu. reflexivity.
    + reflexivity.
    + vm_compute. discriminate.
    + discriminate.
    + cbn [meta_w i_key]. rewrite C. reflexivity.
    + cbn [meta_w i_key]. rewrite C. reflexivity.
    + lia.
    + intros [].
  - revert Hr Hm. vm_compute. intros X Y. inversion X; subst tr. inversion Y; subst mu. repeat split; auto; try discriminate; intro Z; exfalso; apply Z; reflexivity.
  - vm_compute. discriminate.
  - intros t X. change (a_data (driven_up (d_esc t22_id spl_token_id)) = DTok t) in X. rewrite He in X. inversion X; subst t. clear X. revert He. vm_compute. intro X. inversion X; subst te. split; [reflexivity|].
    intro Z. destruct Z as [Z|[Z|[]]]; discriminate Z.
  - intros [X|X]; exfalso; vm_compute in X; discriminate X.
  - exists l'', fee. split; [exact B|]. split; [exact R1|]. rewrite R5, B. reflexivity.
Qed.
