(** * ProcProofs.v — inversion of successful token-wrap instructions into their CPIs. *)
From Verif Require Import Base Codec State Pda TokenProg Cpi Meta Processor Tac PdaProofs TokProofs FrameProofs.

Lemma exec_program_sys e ms i l : exec_program e system_id ms (IxSys i) l = sys_exec ms i l.
Proof. reflexivity. Qed.
Lemma exec_program_mpl e ms i l : exec_program e mpl_id ms (IxMpl i) l = mpl_exec e ms i l.
Proof. reflexivity. Qed.
Definition token_program (p : pubkey) : Prop := p = spl_token_id \/ p = t22_id.
Lemma exec_program_tok e p ms i l :
  token_program p -> exec_program e p ms (IxTok i) l = tok_exec e p true ms i l.
Proof. intros [->| ->]; reflexivity. Qed.
Lemma token_program_eqb p : pk_eqb p spl_token_id || pk_eqb p t22_id = true <-> token_program p.
Proof. unfold token_program. rewrite orb_true_iff, !pk_eqb_eq. tauto. Qed.

(** ** Signatures in a CPI come from the caller's accounts or its own seeds. *)
Lemma sig_from_metas ms (P : pubkey -> Prop) :
  (forall m, In m ms -> i_signer m = true -> P (i_key m)) -> forall k, is_sig ms k = true -> P k.
Proof. intros H k Hk. apply is_sig_In in Hk. destruct Hk as (m & Hm & <- & Hs). auto. Qed.

(** A CPI to a token program without PDA signatures. *)
Definition cpi_plain (c : ctx) (ms : list info) : Prop :=
  (forall k, is_sig ms k = true -> is_sig (c_infos c) k = true) /\
  (forall k, is_wr ms k = true -> is_wr (c_infos c) k = true).
(** A CPI signed for exactly one PDA. *)
Definition cpi_signed (c : ctx) (a : pubkey) (ms : list info) : Prop :=
  (forall k, is_sig ms k = true -> is_sig (c_infos c) k = true \/ k = a) /\
  (forall k, is_wr ms k = true -> is_wr (c_infos c) k = true).

Lemma invoke_plain_inv e c borrowed ix passed l l' :
  invoke_signed e c borrowed ix passed [] l = Ok l' ->
  exec_program e (ix_prog ix) (ix_metas ix) (ix_body ix) l = Ok l' /\ cpi_plain c (ix_metas ix) /\
  (forall k, is_wr (ix_metas ix) k = true -> In k borrowed -> In k passed -> False).
Proof.
  intro H. apply invoke_signed_inv in H. destruct H as (H & Hw & (pdas & Hp & Hs) & _ & Hb & _).
  cbn [map_res] in Hp. inversion Hp; subst. split; [exact H|]. split; [split|].
  - apply sig_from_metas. intros m Hm1 Hm2. destruct (Hs m Hm1 Hm2) as [X|[]]; exact X.
  - apply is_wr_sub. exact Hw.
  - intros k Hk. apply is_wr_In in Hk. destruct Hk as (m & Hm & <- & Hw'). eauto.
Qed.
Lemma invoke_pda_inv e c borrowed ix passed s a l l' :
  create_program_address e s (c_prog c) = Ok a ->
  invoke_signed e c borrowed ix passed [s] l = Ok l' ->
  exec_program e (ix_prog ix) (ix_metas ix) (ix_body ix) l = Ok l' /\ cpi_signed c a (ix_metas ix) /\
  (forall k, is_wr (ix_metas ix) k = true -> In k borrowed -> In k passed -> False).
Proof.
  intros Ha H. apply invoke_signed_inv in H. destruct H as (H & Hw & (pdas & Hp & Hs) & _ & Hb & _).
  cbn [map_res bind] in Hp. rewrite Ha in Hp. cbn [bind] in Hp. inversion Hp; subst.
  split; [exact H|]. split; [split|].
  - apply (sig_from_metas _ (fun k => is_sig (c_infos c) k = true \/ k = a)). intros m Hm1 Hm2.
    destruct (Hs m Hm1 Hm2) as [X|[X|[]]]; auto.
  - apply is_wr_sub. exact Hw.
  - intros k Hk. apply is_wr_In in Hk. destruct Hk as (m & Hm & <- & Hw'). eauto.
Qed.
(** Without knowing the seeds' address. *)
Lemma invoke_any_inv e c borrowed ix passed seeds l l' :
  invoke_signed e c borrowed ix passed seeds l = Ok l' ->
  exec_program e (ix_prog ix) (ix_metas ix) (ix_body ix) l = Ok l' /\
  (forall k, is_wr (ix_metas ix) k = true -> is_wr (c_infos c) k = true).
Proof.
  intro H. apply invoke_signed_inv in H. destruct H as (H & Hw & _). split; [exact H|]. now apply is_wr_sub.
Qed.

Lemma check_spl_ok p u : check_spl_token_program_account p = Ok u -> token_program p.
Proof. unfold check_spl_token_program_account; intro H. apply guard_ok in H. now apply token_program_eqb. Qed.
Lemma check_t22_ok p u : check_t22_program_account p = Ok u -> p = t22_id.
Proof. unfold check_t22_program_account; intro H. inv_ok. auto. Qed.

Lemma map_key_transfer_metas l src mnt dst auth extra :
  map i_key (transfer_metas l src mnt dst auth extra) = src :: mnt :: dst :: auth :: map i_key extra.
Proof. reflexivity. Qed.

(** ** Transfer helpers *)
Lemma invoke_transfer_checked_inv e c borrowed p src mnt dst auth additional amount dec seeds l l' :
  invoke_transfer_checked e c borrowed p src mnt dst auth additional amount dec seeds l = Ok l' ->
  token_program p /\ exists extra, e_extra e l (c_infos c) additional = Ok extra /\
    let ms := transfer_metas l src mnt dst auth extra in
    invoke_signed e c borrowed (mkIx p ms (IxTok (TiTransferChecked amount dec)))
      ([src; mnt; dst; auth] ++ map i_key extra) seeds l = Ok l' /\
    tok_transfer_checked e p true ms src mnt dst auth (map i_key extra) amount dec None l = Ok l'.
Proof.
  unfold invoke_transfer_checked; intro H.
  apply bind_ok in H; destruct H as [ix [Hix H]]. unfold ix_transfer_checked in Hix.
  apply bind_ok in Hix; destruct Hix as [u [Hc _]]. apply check_spl_ok in Hc.
  apply bind_ok in H; destruct H as [extra [Hx H]]. cbv zeta in H.
  split; [exact Hc|]. exists extra. split; [exact Hx|]. cbv zeta. split; [exact H|].
  apply invoke_any_inv in H. destruct H as [H _]. cbn [ix_prog ix_metas ix_body] in H.
  rewrite exec_program_tok in H by exact Hc. exact H.
Qed.
Lemma invoke_transfer_checked_with_fee_inv e c borrowed p src mnt dst auth additional amount dec fee seeds l l' :
  invoke_transfer_checked_with_fee e c borrowed p src mnt dst auth additional amount dec fee seeds l = Ok l' ->
  p = t22_id /\ exists extra, e_extra e l (c_infos c) additional = Ok extra /\
    let ms := transfer_metas l src mnt dst auth extra in
    invoke_signed e c borrowed (mkIx p ms (IxTok (TiTransferCheckedWithFee amount dec fee)))
      ([src; mnt; dst; auth] ++ map i_key extra) seeds l = Ok l' /\
    tok_transfer_checked e p true ms src mnt dst auth (map i_key extra) amount dec (Some fee) l = Ok l'.
Proof.
  unfold invoke_transfer_checked_with_fee; intro H.
  apply bind_ok in H; destruct H as [ix [Hix H]]. unfold ix_transfer_checked_with_fee in Hix.
  apply bind_ok in Hix; destruct Hix as [u [Hc _]]. apply check_t22_ok in Hc.
  apply bind_ok in H; destruct H as [extra [Hx H]]. cbv zeta in H.
  split; [exact Hc|]. exists extra. split; [exact Hx|]. cbv zeta. split; [exact H|].
  apply invoke_any_inv in H. destruct H as [H _]. cbn [ix_prog ix_metas ix_body] in H.
  rewrite exec_program_tok in H by (right; exact Hc).
  unfold tok_exec in H. rewrite map_key_transfer_metas in H. subst p. cbn [guard] in H.
  change (pk_eqb t22_id t22_id) with true in H. cbn [guard bind] in H. exact H.
Qed.

(** ** Wrap *)
Definition wrap_fee (e : env) (m : mint) (amount : N) : N :=
  match ext_fee m with
  | Some cfg => match calculate_epoch_fee cfg (e_epoch e) amount with Some f => f | None => 0 end
  | None => 0
  end.

Lemma process_wrap_inv_x e c amount l l' r w a up wp s u esc ta rest :
  map i_key (c_infos c) = r :: w :: a :: up :: wp :: s :: u :: esc :: ta :: rest ->
  c_prog c = tw_id ->
  process_wrap e c amount l = Ok l' ->
  amount <> 0 /\ token_program up /\ token_program wp /\
  w = wrapped_mint_of e u wp /\ a = authority_of e w /\ esc = escrow_of e u up wp /\
  exists et um ms extra l1 msm,
    pod_unpack_tok (a_data (l esc)) = Ok et /\ t_owner et = a /\
    pod_unpack_mint (a_data (l u)) = Ok um /\ wrap_fee e um amount <= amount /\
    ms = transfer_metas l s u esc ta extra /\ cpi_plain c ms /\
    tok_transfer_checked e up true ms s u esc ta (map i_key extra) amount (m_decimals um)
      (if pk_eqb up t22_id then Some (wrap_fee e um amount) else None) l = Ok l1 /\
    msm = [meta_w w false; meta_w r false; meta_r a true] /\ cpi_signed c a msm /\
    tok_mint_to wp msm w r a [] (amount - wrap_fee e um amount) l1 = Ok l' /\
    e_extra e l (c_infos c) (skipn 9 (c_infos c)) = Ok extra.
Proof.
  intros Hk Hcp H. unfold process_wrap in H.
  apply bind_ok in H; destruct H as [[] [Hz H]]. apply guard_ok, negb_true_iff, N.eqb_neq in Hz.
  destruct (c_infos c) as [|ri [|wi [|ai [|upi [|wpi [|si [|ui [|ei [|ti additional]]]]]]]]] eqn:Hi; try discriminate H.
  cbn [map] in Hk. inversion Hk; subst r w a up wp s u esc ta rest. clear Hk. cbv zeta in H.
  set (r := i_key ri) in *; set (w := i_key wi) in *; set (a := i_key ai) in *; set (up := i_key upi) in *;
    set (wp := i_key wpi) in *; set (s := i_key si) in *; set (u := i_key ui) in *; set (esc := i_key ei) in *;
    set (ta := i_key ti) in *.
  apply bind_ok in H; destruct H as [w' [Hw H]]. apply get_wrapped_mint_address_ok in Hw.
  apply bind_ok in H; destruct H as [[] [Hww H]]. apply guard_ok, pk_eqb_eq in Hww.
  apply bind_ok in H; destruct H as [am [Ham H]]. apply get_wrapped_mint_authority_with_seed_ok in Ham. destruct Ham as [Ham Hseed].
  apply bind_ok in H; destruct H as [[] [Ha H]]. apply guard_ok, pk_eqb_eq in Ha.
  apply bind_ok in H; destruct H as [xa [Hx H]]. apply get_ata_ok in Hx.
  apply bind_ok in H; destruct H as [[] [He H]]. apply guard_ok, pk_eqb_eq in He.
  apply bind_ok in H; destruct H as [et [Het H]].
  apply bind_ok in H; destruct H as [[] [Heo H]]. apply guard_ok, pk_eqb_eq in Heo.
  apply bind_ok in H; destruct H as [um [Hum H]].
  fold (wrap_fee e um amount) in H.
  apply bind_ok in H; destruct H as [[] [Hfee H]]. apply guard_ok, N.leb_le in Hfee.
  apply bind_ok in H; destruct H as [l1 [Htr H]].
  apply bind_ok in H; destruct H as [ix [Hix H]]. unfold ix_mint_to in Hix.
  apply bind_ok in Hix; destruct Hix as [[] [Hwp Hix]]. apply check_spl_ok in Hwp. inversion Hix; subst ix; clear Hix.
  rewrite <- Hcp in Hseed.
  eapply invoke_pda_inv in H; [|exact Hseed]. destruct H as (H & Hcs & _). cbn [ix_prog ix_metas ix_body] in H, Hcs.
  rewrite exec_program_tok in H by exact Hwp.
  assert (Haw : a = authority_of e w) by congruence.
  assert (Htr' : token_program up /\ exists extra, e_extra e l (c_infos c) additional = Ok extra /\
            cpi_plain c (transfer_metas l s u esc ta extra) /\
            tok_transfer_checked e up true (transfer_metas l s u esc ta extra) s u esc ta (map i_key extra) amount
              (m_decimals um) (if pk_eqb up t22_id then Some (wrap_fee e um amount) else None) l = Ok l1).
  { destruct (pk_eqb up t22_id) eqn:Eup.
    - apply invoke_transfer_checked_with_fee_inv in Htr. destruct Htr as (Hup & extra & Hex & Hinv & Htr).
      split; [right; exact Hup|]. exists extra. split; [exact Hex|]. split; [|exact Htr].
      apply invoke_plain_inv in Hinv. tauto.
    - apply invoke_transfer_checked_inv in Htr. destruct Htr as (Hup & extra & Hex & Hinv & Htr).
      split; [exact Hup|]. exists extra. split; [exact Hex|]. split; [|exact Htr].
      apply invoke_plain_inv in Hinv. tauto. }
  destruct Htr' as (Hup & extra & Hex & Hpl & Htr').
  split; [exact Hz|]. split; [exact Hup|]. split; [exact Hwp|].
  split; [congruence|]. split; [exact Haw|].
  split. { unfold escrow_of, escrow_for. rewrite He, Hx, Haw. rewrite <- Hww, Hw. reflexivity. }
  exists et, um, (transfer_metas l s u esc ta extra), extra, l1, [meta_w w false; meta_w r false; meta_r a true].
  repeat (split; [first [assumption | reflexivity | congruence]|]).
  unfold tok_exec in H. cbn [map meta_w meta_r i_key is_nil app] in H. rewrite Hi in Hex; exact Hex.
Qed.

Lemma process_wrap_inv e c amount l l' r w a up wp s u esc ta rest :
  map i_key (c_infos c) = r :: w :: a :: up :: wp :: s :: u :: esc :: ta :: rest ->
  c_prog c = tw_id ->
  process_wrap e c amount l = Ok l' ->
  amount <> 0 /\ token_program up /\ token_program wp /\
  w = wrapped_mint_of e u wp /\ a = authority_of e w /\ esc = escrow_of e u up wp /\
  exists et um ms extra l1 msm,
    pod_unpack_tok (a_data (l esc)) = Ok et /\ t_owner et = a /\
    pod_unpack_mint (a_data (l u)) = Ok um /\ wrap_fee e um amount <= amount /\
    ms = transfer_metas l s u esc ta extra /\ cpi_plain c ms /\
    tok_transfer_checked e up true ms s u esc ta (map i_key extra) amount (m_decimals um)
      (if pk_eqb up t22_id then Some (wrap_fee e um amount) else None) l = Ok l1 /\
    msm = [meta_w w false; meta_w r false; meta_r a true] /\ cpi_signed c a msm /\
    tok_mint_to wp msm w r a [] (amount - wrap_fee e um amount) l1 = Ok l'.
Proof.
  intros Hk Hcp H. destruct (process_wrap_inv_x e c amount l l' r w a up wp s u esc ta rest Hk Hcp H) as (A1 & A2 & A3 & A4 & A5 & A6 & et & um & ms & extra & l1 & msm & B).
  repeat (split; [assumption|]). exists et, um, ms, extra, l1, msm. tauto.
Qed.

(** ** Unwrap *)
Lemma process_unwrap_inv_x e c amount l l' esc r a u wp up s w ta rest :
  map i_key (c_infos c) = esc :: r :: a :: u :: wp :: up :: s :: w :: ta :: rest ->
  c_prog c = tw_id ->
  process_unwrap e c amount l = Ok l' ->
  amount <> 0 /\ token_program up /\ token_program wp /\
  w = wrapped_mint_of e u wp /\ a = authority_of e w /\ esc = escrow_of e u up wp /\
  exists msk msb l1 um extra ms,
    msb = [meta_w s false; meta_w w false; meta_r ta (is_nil msk)] ++ map (fun k => meta_r k true) msk /\
    cpi_plain c msb /\
    tok_burn wp true msb s w ta msk amount l = Ok l1 /\
    pod_unpack_mint (a_data (l1 u)) = Ok um /\
    ms = transfer_metas l1 esc u r a extra /\ cpi_signed c a ms /\
    tok_transfer_checked e up true ms esc u r a (map i_key extra) amount (m_decimals um) None l1 = Ok l' /\
    e_extra e l1 (c_infos c) (skipn 9 (c_infos c)) = Ok extra.
Proof.
  intros Hk Hcp H. unfold process_unwrap in H.
  apply bind_ok in H; destruct H as [[] [Hz H]]. apply guard_ok, negb_true_iff, N.eqb_neq in Hz.
  destruct (c_infos c) as [|ei [|ri [|ai [|ui [|wpi [|upi [|si [|wi [|ti additional]]]]]]]]] eqn:Hi; try discriminate H.
  cbn [map] in Hk. inversion Hk; subst r w a up wp s u esc ta rest. clear Hk. cbv zeta in H.
  set (r := i_key ri) in *; set (w := i_key wi) in *; set (a := i_key ai) in *; set (up := i_key upi) in *;
    set (wp := i_key wpi) in *; set (s := i_key si) in *; set (u := i_key ui) in *; set (esc := i_key ei) in *;
    set (ta := i_key ti) in *.
  apply bind_ok in H; destruct H as [w' [Hw H]]. apply get_wrapped_mint_address_ok in Hw.
  apply bind_ok in H; destruct H as [[] [Hww H]]. apply guard_ok, pk_eqb_eq in Hww.
  apply bind_ok in H; destruct H as [am [Ham H]]. apply get_wrapped_mint_authority_with_seed_ok in Ham. destruct Ham as [Ham Hseed].
  apply bind_ok in H; destruct H as [[] [Ha H]]. apply guard_ok, pk_eqb_eq in Ha.
  apply bind_ok in H; destruct H as [xa [Hx H]]. apply get_ata_ok in Hx.
  apply bind_ok in H; destruct H as [[] [He H]]. apply guard_ok, pk_eqb_eq in He.
  apply bind_ok in H; destruct H as [msk [Hms H]].
  apply bind_ok in H; destruct H as [ix [Hix H]]. unfold ix_burn in Hix.
  apply bind_ok in Hix; destruct Hix as [[] [Hwp Hix]]. apply check_spl_ok in Hwp. inversion Hix; subst ix; clear Hix.
  apply bind_ok in H; destruct H as [l1 [Hb H]].
  apply bind_ok in H; destruct H as [um [Hum H]].
  apply invoke_transfer_checked_inv in H. destruct H as (Hup & extra & Hex & Hinv & Htr).
  rewrite <- Hcp in Hseed.
  eapply invoke_pda_inv in Hinv; [|exact Hseed]. destruct Hinv as (_ & Hcs & _). cbn [ix_metas] in Hcs.
  unfold invoke in Hb. apply invoke_plain_inv in Hb. destruct Hb as (Hb & Hcb & _). cbn [ix_prog ix_metas ix_body] in Hb, Hcb.
  rewrite exec_program_tok in Hb by exact Hwp.
  assert (Haw : a = authority_of e w) by congruence.
  split; [exact Hz|]. split; [exact Hup|]. split; [exact Hwp|].
  split; [congruence|]. split; [exact Haw|].
  split. { unfold escrow_of, escrow_for. rewrite He, Hx, Haw. rewrite <- Hww, Hw. reflexivity. }
  exists msk, ([meta_w s false; meta_w w false; meta_r ta (is_nil msk)] ++ map (fun k => meta_r k true) msk), l1, um, extra,
    (transfer_metas l1 esc u r a extra).
  split; [reflexivity|]. split; [exact Hcb|]. split.
  { unfold tok_exec in Hb. cbn [map meta_w meta_r i_key app] in Hb. rewrite map_map in Hb. cbn [i_key] in Hb.
    rewrite map_id in Hb. exact Hb. }
  split; [exact Hum|]. split; [reflexivity|]. split; [|split; [exact Htr|rewrite Hi in Hex; exact Hex]].
  rewrite <- Haw in Hcs. exact Hcs.
Qed.

Lemma process_unwrap_inv e c amount l l' esc r a u wp up s w ta rest :
  map i_key (c_infos c) = esc :: r :: a :: u :: wp :: up :: s :: w :: ta :: rest ->
  c_prog c = tw_id ->
  process_unwrap e c amount l = Ok l' ->
  amount <> 0 /\ token_program up /\ token_program wp /\
  w = wrapped_mint_of e u wp /\ a = authority_of e w /\ esc = escrow_of e u up wp /\
  exists msk msb l1 um extra ms,
    msb = [meta_w s false; meta_w w false; meta_r ta (is_nil msk)] ++ map (fun k => meta_r k true) msk /\
    cpi_plain c msb /\
    tok_burn wp true msb s w ta msk amount l = Ok l1 /\
    pod_unpack_mint (a_data (l1 u)) = Ok um /\
    ms = transfer_metas l1 esc u r a extra /\ cpi_signed c a ms /\
    tok_transfer_checked e up true ms esc u r a (map i_key extra) amount (m_decimals um) None l1 = Ok l'.
Proof.
  intros Hk Hcp H. destruct (process_unwrap_inv_x e c amount l l' esc r a u wp up s w ta rest Hk Hcp H) as (A1 & A2 & A3 & A4 & A5 & A6 & msk & msb & l1 & um & extra & ms & B).
  repeat (split; [assumption|]). exists msk, msb, l1, um, extra, ms. tauto.
Qed.

(** ** Close *)
Lemma process_close_inv e c l l' esc d u w a p rest :
  map i_key (c_infos c) = esc :: d :: u :: w :: a :: p :: rest ->
  c_prog c = tw_id ->
  process_close_stuck_escrow e c l = Ok l' ->
  a_owner (l esc) = t22_id /\ a_owner (l u) = t22_id /\
  w = wrapped_mint_of e u (a_owner (l w)) /\ a = authority_of e w /\ esc = escrow_of e u t22_id (a_owner (l w)) /\
  exists et m msc,
    pod_unpack_tok (a_data (l esc)) = Ok et /\ t_owner et = a /\ t_amount et = 0 /\ t_state et = Initialized /\
    pod_unpack_mint (a_data (l u)) = Ok m /\
    in_good_state (map acct_ext_type_of (t_exts et)) (required_account_extensions m) = false /\
    msc = [meta_w esc false; meta_w d false; meta_r a true] /\ cpi_signed c a msc /\ d <> u /\
    tok_close t22_id true msc esc d a [] l = Ok l'.
Proof.
  intros Hk Hcp H. unfold process_close_stuck_escrow in H.
  destruct (c_infos c) as [|ei [|di [|ui [|wi [|ai [|pi additional]]]]]] eqn:Hi; try discriminate H.
  cbn [map] in Hk. inversion Hk; subst esc d u w a p rest. clear Hk. cbv zeta in H.
  set (esc := i_key ei) in *; set (d := i_key di) in *; set (u := i_key ui) in *; set (w := i_key wi) in *; set (a := i_key ai) in *.
  apply bind_ok in H; destruct H as [[] [Ho H]]. apply guard_ok, andb_true_iff in Ho. destruct Ho as [Ho1 Ho2]. apply pk_eqb_eq in Ho1, Ho2.
  apply bind_ok in H; destruct H as [w' [Hw H]]. apply get_wrapped_mint_address_ok in Hw.
  apply bind_ok in H; destruct H as [[] [Hww H]]. apply guard_ok, pk_eqb_eq in Hww.
  apply bind_ok in H; destruct H as [am [Ham H]]. apply get_wrapped_mint_authority_with_seed_ok in Ham. destruct Ham as [Ham Hseed].
  apply bind_ok in H; destruct H as [[] [Ha H]]. apply guard_ok, pk_eqb_eq in Ha.
  apply bind_ok in H; destruct H as [xa [Hx H]]. apply get_ata_ok in Hx.
  apply bind_ok in H; destruct H as [[] [He H]]. apply guard_ok, pk_eqb_eq in He.
  apply bind_ok in H; destruct H as [et [Het H]].
  apply bind_ok in H; destruct H as [[] [Heo H]]. apply guard_ok, pk_eqb_eq in Heo.
  apply bind_ok in H; destruct H as [[] [Hz H]]. apply guard_ok, N.eqb_eq in Hz.
  apply bind_ok in H; destruct H as [[] [Hst H]]. apply guard_ok in Hst.
  apply bind_ok in H; destruct H as [m [Hm H]].
  apply bind_ok in H; destruct H as [[] [Hg H]]. apply guard_ok, negb_true_iff in Hg.
  apply bind_ok in H; destruct H as [ix [Hix H]]. unfold ix_close_account in Hix.
  apply bind_ok in Hix; destruct Hix as [[] [Hwp Hix]]. apply check_spl_ok in Hwp. inversion Hix; subst ix; clear Hix.
  rewrite <- Hcp in Hseed.
  eapply invoke_pda_inv in H; [|exact Hseed]. destruct H as (H & Hcs & Hbor). cbn [ix_prog ix_metas ix_body] in H, Hcs, Hbor.
  rewrite exec_program_tok in H by exact Hwp. rewrite Ho1 in H.
  assert (Haw : a = authority_of e w) by congruence.
  split; [exact Ho1|]. split; [exact Ho2|]. split; [congruence|]. split; [exact Haw|].
  split. { unfold escrow_of, escrow_for. rewrite He, Hx, Haw, Ho2. rewrite Hww at 1. rewrite Hw. reflexivity. }
  exists et, m, [meta_w esc false; meta_w d false; meta_r a true].
  split; [exact Het|]. split; [exact Heo|]. split; [exact Hz|].
  split. { destruct (t_state et); try discriminate; reflexivity. }
  split; [exact Hm|]. split; [exact Hg|]. split; [reflexivity|].
  split. { rewrite <- Haw in Hcs. exact Hcs. }
  split. { intro X. apply (Hbor d).
           - unfold is_wr. cbn. rewrite pk_eqb_refl. cbn. rewrite orb_true_r. reflexivity.
           - left. auto.
           - simpl. auto. }
  exact H.
Qed.
