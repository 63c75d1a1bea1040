(** * WrapProofs.v — Wrap and Unwrap. *)
From Verif Require Import Base Codec State Pda TokenProg Cpi Meta Processor Tac CodecProofs PdaProofs TokProofs FrameProofs ProcProofs Spec SpecLemmas.

Lemma amount_wf amount : amount < two64 -> instr_wf (Wrap (K:=list N) amount) /\ instr_wf (Unwrap (K:=list N) amount).
Proof. intro H. split; exact H. Qed.

Lemma wrap_zero_l e accounts l : fails e accounts (Wrap 0) l (ECustom 2).
Proof. unfold fails. rewrite outcome_instr by reflexivity. reflexivity. Qed.
Lemma unwrap_zero_l e accounts l : fails e accounts (Unwrap 0) l (ECustom 2).
Proof. unfold fails. rewrite outcome_instr by reflexivity. reflexivity. Qed.

(** Inversion of a successful Wrap at API level. *)
Lemma wrap_inv e accounts amount l l' r w a up wp s u esc ta :
  amount < two64 ->
  keys_are accounts [r; w; a; up; wp; s; u; esc; ta] ->
  succeeds e accounts (Wrap amount) l l' ->
  amount <> 0 /\ token_program up /\ token_program wp /\
  w = wrapped_mint_of e u wp /\ a = authority_of e w /\ esc = escrow_of e u up wp /\
  exists et um ms extra l1 msm,
    pod_unpack_tok (a_data (l esc)) = Ok et /\ t_owner et = a /\
    pod_unpack_mint (a_data (l u)) = Ok um /\ wrap_fee e um amount <= amount /\
    ms = transfer_metas l s u esc ta extra /\ cpi_plain (mkCtx tw_id accounts) ms /\
    tok_transfer_checked e up true ms s u esc ta (map i_key extra) amount (m_decimals um)
      (if pk_eqb up t22_id then Some (wrap_fee e um amount) else None) l = Ok l1 /\
    msm = [meta_w w false; meta_w r false; meta_r a true] /\ cpi_signed (mkCtx tw_id accounts) a msm /\
    tok_mint_to wp msm w r a [] (amount - wrap_fee e um amount) l1 = Ok l'.
Proof.
  intros Ha [more Hk] H. unfold succeeds in H. rewrite outcome_instr in H by exact Ha.
  cbn [map_instr process_instr] in H. eapply process_wrap_inv in H; [exact H| |reflexivity].
  cbn [c_infos]. rewrite Hk. reflexivity.
Qed.
Lemma unwrap_inv e accounts amount l l' esc r a u wp up s w ta :
  amount < two64 ->
  keys_are accounts [esc; r; a; u; wp; up; s; w; ta] ->
  succeeds e accounts (Unwrap amount) l l' ->
  amount <> 0 /\ token_program up /\ token_program wp /\
  w = wrapped_mint_of e u wp /\ a = authority_of e w /\ esc = escrow_of e u up wp /\
  exists msk msb l1 um extra ms,
    msb = [meta_w s false; meta_w w false; meta_r ta (is_nil msk)] ++ map (fun k => meta_r k true) msk /\
    cpi_plain (mkCtx tw_id accounts) msb /\
    tok_burn wp true msb s w ta msk amount l = Ok l1 /\
    pod_unpack_mint (a_data (l1 u)) = Ok um /\
    ms = transfer_metas l1 esc u r a extra /\ cpi_signed (mkCtx tw_id accounts) a ms /\
    tok_transfer_checked e up true ms esc u r a (map i_key extra) amount (m_decimals um) None l1 = Ok l'.
Proof.
  intros Ha [more Hk] H. unfold succeeds in H. rewrite outcome_instr in H by exact Ha.
  cbn [map_instr process_instr] in H. eapply process_unwrap_inv in H; [exact H| |reflexivity].
  cbn [c_infos]. rewrite Hk. reflexivity.
Qed.

Lemma not_wr accounts ms k :
  (forall k, is_wr ms k = true -> is_wr accounts k = true) ->
  ~ (exists i, In i accounts /\ i_key i = k /\ i_writable i = true) -> is_wr ms k = false.
Proof.
  intros H Hn. destruct (is_wr ms k) eqn:E; [|reflexivity]. exfalso. apply Hn. apply H in E. now apply is_wr_In in E.
Qed.
Lemma reach_of m accounts ms l k :
  (forall k, is_wr ms k = true -> is_wr accounts k = true) ->
  hook_cannot_reach m accounts l k ->
  ext_hook m = None \/ is_wr ms k = false \/ a_owner (l k) = t22_id \/ a_owner (l k) = tw_id \/ is_tw_pda k = true.
Proof. intros H [Hk|[Hk|Hk]]; auto. right; left. eapply not_wr; eauto. Qed.

Lemma withheld_amount n t : withheld (set_amount n t) = withheld t.
Proof. reflexivity. Qed.

Lemma credit_same d dx fee n :
  (if fee =? 0 then dx = t_exts d else add_withheld fee (t_exts d) = Some dx) ->
  same_account d (set_texts dx (set_amount n d)) /\ withheld (set_texts dx (set_amount n d)) = withheld d + fee.
Proof.
  intro H. destruct (N.eqb_spec fee 0) as [->|Hf].
  - subst dx. split; [repeat split|]. unfold withheld. cbn. lia.
  - pose proof (add_withheld_types _ _ _ H) as Ht. split.
    + unfold same_account. cbn. pose proof (add_withheld_space _ _ _ H) as Hs. auto 10.
    + apply (withheld_add fee (set_amount n d)) in H. exact H.
Qed.

(** ** What Wrap does *)
Lemma wrap_exact_l e accounts amount l l' r w a up wp s u esc ta :
  amount < two64 ->
  keys_are accounts [r; w; a; up; wp; s; u; esc; ta] ->
  succeeds e accounts (Wrap amount) l l' ->
  s <> esc ->
  exists mu mw ts te fee ts' te',
    (w = wrapped_mint_of e u wp /\ a = authority_of e w /\ esc = escrow_of e u up wp /\ spl_or_t22 up /\ spl_or_t22 wp) /\
    (mint_data l u mu /\ mint_account l w wp mw /\ m_auth mw = Some a /\
     token_account l s up ts /\ t_mint ts = u /\ token_account l esc up te /\ t_mint te = u /\ t_owner te = a) /\
    (0 < amount /\ fee_for mu (e_epoch e) amount fee /\ fee <= amount /\ amount <= t_amount ts /\
     native_part ts amount <= lamports l s) /\
    (l' s = mkAcc (lamports l s - native_part ts amount) (DTok ts') up /\
     t_amount ts' = t_amount ts - amount /\ same_account ts ts' /\ t_exts ts' = t_exts ts /\ delegation_after ts ts' ta amount) /\
    (l' esc = mkAcc (lamports l esc + native_part ts amount) (DTok te') up /\
     t_amount te' = t_amount te + (amount - fee) /\ withheld te' = withheld te + fee /\ same_account te te' /\
     t_delegate te' = t_delegate te /\ t_delegated te' = t_delegated te) /\
    l' w = mkAcc (lamports l w)
                 (DMint (mkMint (m_auth mw) (m_supply mw + (amount - fee)) (m_decimals mw) (m_init mw) (m_freeze mw) (m_exts mw) (m_len mw))) wp /\
    (exists tr, t_mint tr = w /\ a_owner (l' r) = wp /\
       a_data (l' r) = DTok (mkTok (t_mint tr) (t_owner tr) (t_amount tr + (amount - fee)) (t_delegate tr) (t_delegated tr)
                                   (t_state tr) (t_native tr) (t_close tr) (t_exts tr)) /\
       (hook_cannot_reach mu accounts l r -> token_account l r wp tr /\ lamports l' r = lamports l r)) /\
    (r <> s /\ r <> esc /\ r <> w) /\
    forall k, k <> s -> k <> esc -> k <> w -> k <> r -> hook_cannot_reach mu accounts l k -> l' k = l k.
Proof.
  intros Hu64 Hk H Hse.
  eapply wrap_inv in H; [|eassumption|eassumption].
  destruct H as (Hz & Hup & Hwp & Ew & Ea & Ee & et & um & ms & extra & l1 & msm & Het & Heo & Hum & Hfl & -> & [_ Hwr] & Htr & -> & [_ Hwr2] & Hmt).
  eapply transfer_effect in Htr; [|exact Hup|exact Hse].
  destruct Htr as (ts & te & mu & fee & s1 & dx & Hs & Hd & Hm & Hms & Hmd & Hfs & Hfd & Hdec & Hfee & Hfa & Has & Hov & _ & _ & Hau & Ho1 & Ho2 & _ & _ & Hdx & Hnat & L1 & L2 & L3).
  apply unpack_tok_inv in Hs. destruct Hs as (Ds & Ss & _). apply unpack_tok_inv in Hd. destruct Hd as (Dd & Sd & _).
  pose proof Hm as Hm0. apply unpack_mint_inv in Hm. destruct Hm as (Dm & Im & _).
  apply pod_unpack_mint_inv in Hum. destruct Hum as (Dum & _). rewrite Dm in Dum. inversion Dum; subst um; clear Dum.
  apply pod_unpack_tok_inv in Het. destruct Het as (Det & _). rewrite Dd in Det. inversion Det; subst et; clear Det.
  rewrite (transfer_fee_wrap_fee _ _ _ _ Hfee) in Hmt.
  apply mint_to_inv in Hmt.
  destruct Hmt as (tr & mw & Hr & Hfr & _ & Hrm & Hw & Hwa & _ & _ & _ & Or & Ow & Hwr' & _ & _ & ->).
  apply unpack_tok_inv in Hr. destruct Hr as (Dr & Sr & _). apply unpack_mint_inv in Hw. destruct Hw as (Dw & Iw & _).
  assert (Nwu : w <> u) by (rewrite Ew; apply wrapped_neq_unwrapped).
  assert (Nws : w <> s). { intro X; subst w. rewrite <- X in L1. rewrite L1 in Dw. discriminate. }
  assert (Nwe : w <> esc). { intro X. rewrite X in Dw. rewrite L2 in Dw. discriminate. }
  assert (Nrs : r <> s). { intro X. rewrite X, L1 in Dr. inversion Dr; subst tr. cbn in Hrm.
    apply authorize_debit_fields in Hau. destruct Hau as [Hx _]. congruence. }
  assert (Nre : r <> esc). { intro X. rewrite X, L2 in Dr. inversion Dr; subst tr. cbn in Hrm. congruence. }
  assert (Lw : l1 w = l w).
  { apply L3; auto. right; right; right; right. rewrite Ew. apply is_tw_pda_wrapped. }
  rewrite Lw in *.
  exists mu, mw, ts, te, fee, (set_amount (t_amount ts - amount) s1), (set_texts dx (set_amount (t_amount te + (amount - fee)) te)).
  split. { repeat split; auto. }
  split. { unfold mint_data, mint_account, token_account, mint_data. rewrite Dm, Dw, Ds, Dd. repeat split; auto; try congruence. }
  split. { repeat split; auto; try lia. eapply transfer_fee_of_for; eauto. }
  split. { rewrite !upd_other by auto. split; [exact L1|]. split; [reflexivity|].
    split; [eapply debit_same; eauto|]. split.
    - apply authorize_debit_fields in Hau. tauto.
    - apply debit_delegation in Hau. exact Hau. }
  split. { rewrite !upd_other by auto. split; [exact L2|]. split; [reflexivity|].
    destruct (credit_same te dx fee (t_amount te + (amount - fee)) Hdx) as [A B]. split; [exact B|]. split; [exact A|auto]. }
  split. { rewrite upd_same. unfold with_data. rewrite Ow. reflexivity. }
  split.
  { exists tr. split; [exact Hrm|]. rewrite upd_other by auto. rewrite upd_same. cbn [with_data a_owner a_data]. split; [exact Or|].
    split; [reflexivity|]. intro Hh.
    assert (Lr : l1 r = l r). { apply L3; auto. eapply reach_of; [|exact Hh]. exact Hwr. }
    rewrite Lr in *. unfold token_account, lamports. rewrite upd_other by auto. rewrite upd_same. auto. }
  split; [auto|].
  intros k K1 K2 K3 K4 Hh. rewrite !upd_other by auto. apply L3; auto. eapply reach_of; [|exact Hh]. exact Hwr.
Qed.

(** ** Consent for Wrap *)
Lemma wrap_consent_l e accounts amount l l' r w a up wp s u esc ta :
  amount < two64 ->
  keys_are accounts [r; w; a; up; wp; s; u; esc; ta] ->
  succeeds e accounts (Wrap amount) l l' ->
  exists ts mu who, token_account l s up ts /\ mint_data l u mu /\ signed_by accounts l up who /\
    (who = t_owner ts \/ (t_delegate ts = Some who /\ amount <= t_delegated ts) \/ ext_permanent_delegate mu = Some who).
Proof.
  intros Hu64 Hk H. eapply wrap_inv in H; [|eassumption|eassumption].
  destruct H as (Hz & Hup & Hwp & Ew & Ea & Ee & et & um & ms & extra & l1 & msm & Het & Heo & Hum & Hfl & -> & [Hsg _] & Htr & _).
  apply transfer_checked_inv in Htr.
  destruct Htr as (ts & mu & fee & s1 & Hs & _ & _ & _ & Hm & _ & _ & _ & _ & Hau & Ho1 & _).
  apply unpack_tok_inv in Hs. destruct Hs as (Ds & Ss & _). apply unpack_mint_inv in Hm. destruct Hm as (Dm & Im & _).
  apply authorize_debit_consent in Hau. destruct Hau as (who & Hw & Hc).
  exists ts, mu, who. split; [repeat split; auto|]. split; [split; auto|]. split; [|exact Hc].
  eapply signed_for_signed_by; [|exact Hw]. exact Hsg.
Qed.

(** ** What Unwrap does *)
Lemma unwrap_exact_l e accounts amount l l' esc r a u wp up s w ta :
  amount < two64 ->
  keys_are accounts [esc; r; a; u; wp; up; s; w; ta] ->
  succeeds e accounts (Unwrap amount) l l' ->
  r <> esc ->
  exists mu mw ts te tr fee ts' te' tr',
    (w = wrapped_mint_of e u wp /\ a = authority_of e w /\ esc = escrow_of e u up wp /\ spl_or_t22 up /\ spl_or_t22 wp) /\
    (mint_data l u mu /\ mint_account l w wp mw /\ token_account l s wp ts /\ t_mint ts = w /\
     token_account l esc up te /\ t_mint te = u /\ token_account l r up tr /\ t_mint tr = u) /\
    (0 < amount /\ fee_for mu (e_epoch e) amount fee /\ fee <= amount /\ amount <= t_amount ts /\ amount <= m_supply mw /\
     amount <= t_amount te /\ native_part te amount <= lamports l esc) /\
    (l' w = mkAcc (lamports l w)
                 (DMint (mkMint (m_auth mw) (m_supply mw - amount) (m_decimals mw) (m_init mw) (m_freeze mw) (m_exts mw) (m_len mw))) wp) /\
    (l' esc = mkAcc (lamports l esc - native_part te amount) (DTok te') up /\
     t_amount te' = t_amount te - amount /\ same_account te te' /\ t_exts te' = t_exts te /\ delegation_after te te' a amount) /\
    (l' r = mkAcc (lamports l r + native_part te amount) (DTok tr') up /\
     t_amount tr' = t_amount tr + (amount - fee) /\ withheld tr' = withheld tr + fee /\ same_account tr tr' /\
     t_delegate tr' = t_delegate tr /\ t_delegated tr' = t_delegated tr) /\
    (hook_cannot_reach mu accounts l s -> l' s = mkAcc (lamports l s) (DTok ts') wp) /\
    (t_amount ts' = t_amount ts - amount /\ same_account ts ts' /\ t_exts ts' = t_exts ts /\ delegation_after ts ts' ta amount) /\
    (s <> esc /\ s <> r /\ s <> w /\ esc <> w /\ r <> w) /\
    forall k, k <> s -> k <> esc -> k <> w -> k <> r -> hook_cannot_reach mu accounts l k -> l' k = l k.
Proof.
  intros Hu64 Hk H Hre. eapply unwrap_inv in H; [|eassumption|eassumption].
  destruct H as (Hz & Hup & Hwp & Ew & Ea & Ee & msk & msb & l1 & um & extra & ms & -> & [_ Hwr2] & Hb & Hum & -> & [_ Hwr] & Htr).
  eapply transfer_effect in Htr; [|exact Hup|congruence].
  destruct Htr as (te & tr & mu & fee & s1 & dx & Hs & Hd & Hm & Hms & Hmd & Hfs & Hfd & Hdec & Hfee & Hfa & Has & Hov & _ & _ & Hau & Ho1 & Ho2 & _ & _ & Hdx & Hnat & L1 & L2 & L3).
  apply unpack_tok_inv in Hs. destruct Hs as (Ds & Ss & _). apply unpack_tok_inv in Hd. destruct Hd as (Dd & Sd & _).
  apply unpack_mint_inv in Hm. destruct Hm as (Dm & Im & _).
  apply burn_inv in Hb.
  destruct Hb as (ts & mw & t1 & Hts & Hmw & Hfr & _ & Hat & Htm & Hauth & Hasu & Os & Ow & Nws & _ & _ & El1).
  apply unpack_tok_inv in Hts. destruct Hts as (Dts & Sts & _). apply unpack_mint_inv in Hmw. destruct Hmw as (Dmw & Imw & _).
  assert (Nwu : w <> u) by (rewrite Ew; apply wrapped_neq_unwrapped).
  assert (Ht1 : t_mint t1 = t_mint ts /\ t_amount t1 = t_amount ts).
  { destruct Hauth as [[_ ->]|(_ & _ & Hauth)]; [auto|]. apply authorize_debit_fields in Hauth. tauto. }
  destruct Ht1 as [Ht1m Ht1a].
  assert (Lw1 : a_data (l1 w) = DMint (set_supply (m_supply mw - amount) mw)).
  { rewrite El1, upd_same. reflexivity. }
  assert (Ls1 : a_data (l1 s) = DTok (set_amount (t_amount t1 - amount) t1)).
  { rewrite El1, upd_other by auto. rewrite upd_same. reflexivity. }
  assert (Nes : esc <> s). { intro X. rewrite X, Ls1 in Ds. inversion Ds; subst te. cbn in Hms. congruence. }
  assert (New : esc <> w). { intro X. rewrite X, Lw1 in Ds. discriminate. }
  assert (Nrs : r <> s). { intro X. rewrite X, Ls1 in Dd. inversion Dd; subst tr. cbn in Hmd. congruence. }
  assert (Nrw : r <> w). { intro X. rewrite X, Lw1 in Dd. discriminate. }
  assert (Nus : u <> s). { intro X. rewrite X, Ls1 in Dm. discriminate. }
  assert (Lo : forall k, k <> s -> k <> w -> l1 k = l k).
  { intros k K1 K2. rewrite El1, !upd_other by auto. reflexivity. }
  rewrite (Lo esc) in * by auto. rewrite (Lo r) in * by auto. rewrite (Lo u) in * by auto.
  exists mu, mw, ts, te, tr, fee, (set_amount (t_amount t1 - amount) t1),
    (set_amount (t_amount te - amount) s1), (set_texts dx (set_amount (t_amount tr + (amount - fee)) tr)).
  split. { repeat split; auto. }
  split. { unfold mint_data, mint_account, token_account, mint_data. rewrite Dm, Dmw, Dts, Ds, Dd. repeat split; auto; try congruence. }
  split. { repeat split; auto; try lia. eapply transfer_fee_of_for; eauto. }
  split. { rewrite L3 by (auto; right; right; right; right; rewrite Ew; apply is_tw_pda_wrapped).
    rewrite El1, upd_same. unfold with_data. rewrite Ow. reflexivity. }
  split. { split; [exact L1|]. split; [reflexivity|]. split; [eapply debit_same; eauto|]. split.
    - apply authorize_debit_fields in Hau. tauto.
    - apply debit_delegation in Hau. exact Hau. }
  split. { split; [exact L2|]. split; [reflexivity|].
    destruct (credit_same tr dx fee (t_amount tr + (amount - fee)) Hdx) as [A B]. split; [exact B|]. split; [exact A|auto]. }
  split. { intro Hh. rewrite L3; auto.
    - rewrite El1, upd_other by auto. rewrite upd_same. unfold with_data. rewrite Os. reflexivity.
    - assert (Ho : a_owner (l1 s) = a_owner (l s)) by (rewrite El1, upd_other, upd_same by auto; reflexivity).
      rewrite Ho. eapply reach_of; [|exact Hh]. exact Hwr. }
  split. { destruct Hauth as [[_ ->]|(_ & _ & Hauth)].
    - split; [reflexivity|]. split; [repeat split|]. split; [reflexivity|]. left; auto.
    - split; [cbn; congruence|]. split; [eapply debit_same; eauto|]. split.
      + apply authorize_debit_fields in Hauth. tauto.
      + apply debit_delegation in Hauth. exact Hauth. }
  split; [auto 10|].
  intros k K1 K2 K3 K4 Hh. rewrite L3; auto. eapply reach_of; [exact Hwr|].
  unfold hook_cannot_reach in *. rewrite (Lo k) by auto. exact Hh.
Qed.

(** The burn alone when the recipient is the escrow itself. *)
Lemma unwrap_consent_l e accounts amount l l' esc r a u wp up s w ta :
  amount < two64 ->
  keys_are accounts [esc; r; a; u; wp; up; s; w; ta] ->
  succeeds e accounts (Unwrap amount) l l' ->
  exists ts mw, token_account l s wp ts /\ mint_account l w wp mw /\
    (t_owner ts = system_id \/ t_owner ts = incinerator_id \/
     exists who, signed_by accounts l wp who /\
       (who = t_owner ts \/ (t_delegate ts = Some who /\ amount <= t_delegated ts) \/ ext_permanent_delegate mw = Some who)).
Proof.
  intros Hu64 Hk H. eapply unwrap_inv in H; [|eassumption|eassumption].
  destruct H as (Hz & Hup & Hwp & Ew & Ea & Ee & msk & msb & l1 & um & extra & ms & -> & [Hsg _] & Hb & _).
  apply burn_inv in Hb.
  destruct Hb as (ts & mw & t1 & Hts & Hmw & _ & _ & _ & Htm & Hauth & Hasu & Os & Ow & _).
  apply unpack_tok_inv in Hts. destruct Hts as (Dts & Sts & _). apply unpack_mint_inv in Hmw. destruct Hmw as (Dmw & Imw & _).
  exists ts, mw. split; [repeat split; auto|]. split; [repeat split; auto|].
  destruct Hauth as [[[X|X] _]|(_ & _ & Hauth)]; auto.
  apply authorize_debit_consent in Hauth. destruct Hauth as (who & Hw & Hc). right; right. exists who.
  split; [|exact Hc]. eapply signed_for_signed_by; [|exact Hw]. exact Hsg.
Qed.
