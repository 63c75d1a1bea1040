(** * PropFees.v — C77: who sets the price of wrapping and unwrapping.  The fee schedule of a Token-2022 mint changes only with the consent
    of its fee authority, never by token-wrap; once there is no fee authority (and nobody can close the mint), or if there are no fees, every
    later Wrap and Unwrap costs exactly what the schedule known today says. *)
From Verif Require Import Base Codec State Pda TokenProg Cpi Ata Meta Processor Builders Tac Demo Demo2 PdaProofs TokProofs FrameProofs ProcProofs Spec SpecLemmas
  WrapProofs CreateProofs MapProofs SyncProofs SyncProofs2 CloseProofs MatchProofs InvTok InvCons HistorySpec InvState InvTw InvHist EscProofs EscLive HistProofs DemoHist
  PropWrap PropClose PropHistory PropCustody PropSurplus PropEscrow PropFreeze PropPause.

(** The fee schedule: who may change it, the older and the newer rate (each with its first epoch, cap and basis points). *)
Definition fees_of (x : mint_ext) : option (option pubkey * (transfer_fee * transfer_fee)) :=
  match x with MxTransferFee c => Some (fc_authority c, (fc_older c, fc_newer c)) | _ => None end.
Lemma rule_fees : rule fees_of (fun _ => fst).
Proof.
  split; [intros x y v S E; destruct x; try discriminate E; destruct y; try discriminate S; discriminate|]. split; [intros m y v E; destruct y; try discriminate E; injection E as <-; reflexivity|].
  split; reflexivity.
Qed.
Lemma fees_ext m : setting fees_of m = match ext_fee m with Some c => Some (fc_authority c, (fc_older c, fc_newer c)) | None => None end.
Proof. unfold setting, ext_fee. induction (m_exts m) as [|x r IH]; [reflexivity|]. destruct x; cbn [find_map fees_of]; try exact IH. reflexivity. Qed.
(** Equal schedules, equal fees. *)
Lemma same_fees m m' epoch n fee : setting fees_of m' = setting fees_of m -> fee_for m' epoch n fee -> fee_for m epoch n fee.
Proof.
  rewrite !fees_ext. unfold fee_for. destruct (ext_fee m') as [c'|], (ext_fee m) as [c|]; intro E; try discriminate E; [|intro F; exact F].
  injection E as _ -> ->. intro F. exact F.
Qed.

(** C77: whatever anybody does, the fee schedule stays, or its fee authority consented, or the close authority has closed the mint when no
    token was left. *)
Theorem C77_schedule : forall e0 a l l' u m,
  reachable e0 l -> step e0 a l l' -> mint_account l u t22_id m ->
  (exists m', mint_account l' u t22_id m' /\
     (setting fees_of m' = setting fees_of m \/ exists f s, setting fees_of m = Some (Some f, s) /\ consented a l t22_id f)) \/
  (exists f, ext_close_authority m = Some f /\ m_supply m = 0 /\ consented a l t22_id f).
Proof.
  intros e0 a l l' u m R S M.
  destruct (step_setting _ _ rule_fees e0 a l l' u m (reachable_inv _ _ R) S M) as [(m' & M' & U)|U]; [left|right; exact U].
  exists m'. split; [exact M'|]. destruct U as [U|([x s] & f & A & B & E)]; [left; exact U|right]. cbn [fst] in B. rewrite B in A. exists f, s. auto.
Qed.
Print Assumptions C77_schedule.
(** C77: no instruction of token-wrap changes the schedule, whoever calls it with whatever accounts. *)
Theorem C77_token_wrap : forall e0 e accounts input l l' u m,
  reachable e0 l -> lawful e0 e -> no_tw_signer accounts -> runs e accounts input l l' -> mint_account l u t22_id m ->
  exists m', mint_account l' u t22_id m' /\ setting fees_of m' = setting fees_of m.
Proof.
  intros e0 e accounts input l l' u m R L NS Ru M. pose proof L as [C _].
  unfold runs, process_instruction in Ru. apply bind_ok in Ru. destruct Ru as (i & Ei & H).
  exact (instr_setting _ _ rule_fees e (mkCtx tw_id accounts) _ l l' u m (Inv_curve _ _ _ C (reachable_inv _ _ R)) (lawful_self _ _ L) NS eq_refl H M).
Qed.
Print Assumptions C77_token_wrap.

(** Nobody can change the fees of the mint any more, nor close it. *)
Definition fees_settled (m : mint) : Prop := (forall f s, setting fees_of m <> Some (Some f, s)) /\ ext_close_authority m = None.
Lemma settled_for_ever e0 past l x u m :
  history e0 past l -> In x (l :: past) -> mint_account x u t22_id m -> fees_settled m ->
  exists m', mint_account l u t22_id m' /\ setting fees_of m' = setting fees_of m /\ ext_close_authority m' = None.
Proof.
  intros H Hx M [F Cl]. induction H as [l G|past l a l' H IH S]; [destruct Hx as [<-|[]]; exists m; auto|].
  destruct Hx as [<-|Hx]; [exists m; auto|]. destruct (IH Hx) as (m1 & M1 & E1 & C1).
  pose proof (history_inv _ _ _ H) as I.
  destruct (step_setting _ _ rule_fees e0 a l l' u m1 I S M1) as [(m' & M' & U)|(f & Q & _)]; [|exfalso; congruence].
  assert (MK : mints_kept l l').
  { destruct (step_kept _ _ _ _ I (history_esc _ _ _ H) S) as [[K _]|(e & wallet & mnt & X)]; [exact K|exact (ata_mints _ _ _ _ _ _ X)]. }
  destruct (MK u t22_id m1 (or_intror eq_refl) M1 C1) as (m2 & M2 & C2 & _).
  assert (m2 = m') by (destruct M2 as (_ & D2 & _), M' as (_ & D' & _); clear - D2 D'; congruence). subst m2.
  exists m'. split; [exact M'|]. split; [|exact C2].
  destruct U as [U|([au s] & f & A & B & _)]; [congruence|]. exfalso. cbn [fst] in B. rewrite B, E1 in A. exact (F f s A).
Qed.
(** C77: once that is so, everybody knows what Unwrap pays, at any later time, in any epoch ... *)
Theorem C77_unwrap_pays : forall e0 past l x u m e accounts n l' esc r a wp up s w ta,
  history e0 past l -> In x (l :: past) -> mint_account x u t22_id m -> fees_settled m ->
  n < two64 -> keys_are accounts [esc; r; a; u; wp; up; s; w; ta] -> succeeds e accounts (Unwrap n) l l' -> r <> esc ->
  exists fee, fee_for m (e_epoch e) n fee /\ fee <= n /\ balance l' r = balance l r + (n - fee) /\ supply l w = supply l' w + n.
Proof.
  intros e0 past l x u m e accounts n l' esc r a wp up s w ta H Hx M F Hn K S Ne.
  destruct (settled_for_ever _ _ _ _ _ _ H Hx M F) as (m' & (_ & D' & _) & E & _).
  destruct (C15_unwrap _ _ _ _ _ _ _ _ _ _ _ _ _ _ Hn K S Ne)
    as (mu & mw & ts & te & tr & fee & ts' & te' & tr' & _ & ((Du & _) & (_ & Dw & _) & _ & _ & _ & _ & (_ & Dr & _) & _) & (_ & Fe & Le & _ & Ls & _) & Lw & _ & (Lr & Ar & _) & _).
  assert (mu = m') by (clear - Du D'; congruence). subst mu. exists fee. split; [exact (same_fees _ _ _ _ _ E Fe)|]. split; [exact Le|]. split.
  - unfold balance. rewrite Lr, Dr. cbn [a_data]. exact Ar.
  - unfold supply. rewrite Lw, Dw. cbn [a_data m_supply]. clear - Ls. lia.
Qed.
Print Assumptions C77_unwrap_pays.
(** ... and what Wrap gives. *)
Theorem C77_wrap_gives : forall e0 past l x u m e accounts n l' r w a up wp s esc ta,
  history e0 past l -> In x (l :: past) -> mint_account x u t22_id m -> fees_settled m ->
  n < two64 -> keys_are accounts [r; w; a; up; wp; s; u; esc; ta] -> succeeds e accounts (Wrap n) l l' -> s <> esc ->
  exists fee, fee_for m (e_epoch e) n fee /\ fee <= n /\ balance l s = balance l' s + n /\ supply l' w = supply l w + (n - fee) /\
    balance l' esc = balance l esc + (n - fee).
Proof.
  intros e0 past l x u m e accounts n l' r w a up wp s esc ta H Hx M F Hn K S Ne.
  destruct (settled_for_ever _ _ _ _ _ _ H Hx M F) as (m' & (_ & D' & _) & E & _).
  destruct (C13_wrap _ _ _ _ _ _ _ _ _ _ _ _ _ _ Hn K S Ne)
    as (mu & mw & ts & te & fee & ts' & te' & _ & ((Du & _) & (_ & Dw & _) & _ & (_ & Ds & _) & _ & (_ & De & _) & _) & (_ & Fe & Le & Lb & _) & (Ls & As & _) & (Lesc & Ae & _) & Lw & _).
  assert (mu = m') by (clear - Du D'; congruence). subst mu. exists fee. split; [exact (same_fees _ _ _ _ _ E Fe)|]. split; [exact Le|]. split; [|split].
  - unfold balance. rewrite Ls, Ds. cbn [a_data]. clear - As Lb. lia.
  - unfold supply. rewrite Lw, Dw. reflexivity.
  - unfold balance. rewrite Lesc, De. cbn [a_data]. exact Ae.
Qed.
Print Assumptions C77_wrap_gives.
(** C77: a mint that has no fees and nobody can close stays free of charge: wrapping and unwrapping are one to one. *)
Lemma no_fees m epoch n fee : ext_fee m = None -> fee_for m epoch n fee -> fee = 0.
Proof. unfold fee_for. intros ->. exact (fun F => F). Qed.
Theorem C77_free : forall e0 past l x u m,
  history e0 past l -> In x (l :: past) -> mint_account x u t22_id m -> ext_fee m = None -> ext_close_authority m = None ->
  (forall e accounts n l' esc r a wp up s w ta, n < two64 -> keys_are accounts [esc; r; a; u; wp; up; s; w; ta] ->
     succeeds e accounts (Unwrap n) l l' -> r <> esc -> balance l' r = balance l r + n) /\
  (forall e accounts n l' r w a up wp s esc ta, n < two64 -> keys_are accounts [r; w; a; up; wp; s; u; esc; ta] ->
     succeeds e accounts (Wrap n) l l' -> s <> esc -> supply l' w = supply l w + n).
Proof.
  intros e0 past l x u m H Hx M NF Cl.
  assert (F : fees_settled m) by (split; [intros f s Q; rewrite fees_ext, NF in Q; discriminate Q|exact Cl]). split.
  - intros e accounts n l' esc r a wp up s w ta Hn K S Ne.
    destruct (C77_unwrap_pays _ _ _ _ _ _ _ _ _ _ _ _ _ _ _ _ _ _ H Hx M F Hn K S Ne) as (fee & Fe & _ & B & _).
    rewrite (no_fees _ _ _ _ NF Fe) in B. clear - B. lia.
  - intros e accounts n l' r w a up wp s esc ta Hn K S Ne.
    destruct (C77_wrap_gives _ _ _ _ _ _ _ _ _ _ _ _ _ _ _ _ _ _ H Hx M F Hn K S Ne) as (fee & Fe & _ & _ & B & _).
    rewrite (no_fees _ _ _ _ NF Fe) in B. clear - B. lia.
Qed.
Print Assumptions C77_free.

(** ** The hypotheses are met, and needed *)
Definition d_taxer : pubkey := PkRaw 707.
Definition d_mild : fee_config := mkFeeConfig (Some d_taxer) None 0 (mkFee 0 1000 100) (mkFee 0 1000 100).
Definition d_harsh : fee_config := mkFeeConfig (Some d_taxer) None 0 (mkFee 0 1000 100) (mkFee 7 18446744073709551615 10000).
(** A fee of one percent; 40 tokens are wrapped, giving 39; then the fee authority announces a fee of all from epoch 7 on. *)
Definition mild_story : list cmd :=
  [ CFund d_alice 5000; CFund (d_w spl_token_id) 4000; CFund (d_b spl_token_id) 4000;
    CAlloc d_u (mint_space [MxTransferFee d_mild]) 9000 t22_id;
    CTok t22_id [meta_w d_u false] (TiInitExt (MxTransferFee d_mild));
    CTok t22_id [meta_w d_u false] (TiInitializeMint2 6 d_mintauth None);
    CTw x_create; CFund (d_esc t22_id spl_token_id) 5000; CAta t22_id (d_a spl_token_id) d_u;
    CAlloc d_alice_u (tok_space [AxTransferFeeAmount 0]) 5000 t22_id; CAlloc d_alice_w 165 5000 spl_token_id;
    CTok t22_id [meta_w d_alice_u false; meta_r d_u false] (TiInitializeAccount d_alice false);
    CTok spl_token_id [meta_w d_alice_w false; meta_r (d_w spl_token_id) false] (TiInitializeAccount d_alice false);
    CTok t22_id [meta_w d_u false; meta_w d_alice_u false; meta_r d_mintauth true] (TiMintTo 1000);
    CTw (x_wrap 40) ].
Definition harsh_story : list cmd := mild_story ++ [CTok t22_id [meta_w d_u false; meta_r d_taxer true] (TiUpdateExt (MxTransferFee d_harsh))].
(** The same environment in epoch 7. *)
Definition env_7 : env :=
  mkEnv (e_off_curve demo_env) (e_rent demo_env) 7 (e_memo demo_env) (e_hook demo_env) (e_extra demo_env) (e_multisig demo_env) (e_external demo_env)
        (e_emit demo_env) (e_realloc_ok demo_env) (e_rank demo_env) (e_key_of_bytes demo_env) (e_mpl_valid demo_env) (e_mpl_cost demo_env) (e_mpl_nonce demo_env)
        (e_json_key demo_env) (e_json_token_standard demo_env) (e_json_creators demo_env) (e_json_collection demo_env) (e_json_uses demo_env)
        (e_json_collection_details demo_env) (e_json_programmable_config demo_env) (e_parse_creators demo_env) (e_parse_collection demo_env) (e_parse_uses demo_env).
Lemma lawful_7 : lawful demo_env env_7.
Proof. exact demo_lawful. Qed.
(** Two results of the same call, each with a decidable property. *)
Lemma redeems (e : env) (l : ledger) (b : ledger -> bool) :
  match process_instruction e (mkCtx tw_id (tx_metas (x_unwrap 39))) (tx_data (x_unwrap 39)) l with Ok z => b z | Err _ => false end = true ->
  exists z, succeeds e (tx_metas (x_unwrap 39)) (Unwrap 39) l z /\ b z = true.
Proof.
  unfold succeeds, outcome. change (pack (Unwrap 39)) with (tx_data (x_unwrap 39)).
  destruct (process_instruction e (mkCtx tw_id (tx_metas (x_unwrap 39))) (tx_data (x_unwrap 39)) l) as [z|err]; [|discriminate].
  intro B. exists z. split; [reflexivity|exact B].
Qed.
(** C77, refuted: "backed wrapped tokens are worth their backing".  39 wrapped tokens are backed by 39 tokens; before epoch 7 their holder gets
    38 for them; but the fee authority has meanwhile set the fee to everything: from epoch 7 on Unwrap burns them and pays nothing. *)
Theorem C77_confiscation_refuted : exists past l l5 l7,
  history demo_env past l /\ ever (no_permanent_delegate d_u) past l /\ lawful demo_env env_7 /\
  supply l (d_w spl_token_id) = 39 /\ balance l (d_esc t22_id spl_token_id) = 39 /\ balance l d_alice_w = 39 /\
  succeeds demo_env (tx_metas (x_unwrap 39)) (Unwrap 39) l l5 /\ balance l5 d_alice_u = balance l d_alice_u + 38 /\
  succeeds env_7 (tx_metas (x_unwrap 39)) (Unwrap 39) l l7 /\ balance l7 d_alice_u = balance l d_alice_u /\ supply l7 (d_w spl_token_id) = 0 /\ balance l7 d_alice_w = 0.
Proof.
  destruct (redeems demo_env (now_of harsh_story) (fun z => balance z d_alice_u =? balance (now_of harsh_story) d_alice_u + 38)) as (l5 & S5 & B5); [vm_compute; reflexivity|].
  destruct (redeems env_7 (now_of harsh_story) (fun z => (balance z d_alice_u =? balance (now_of harsh_story) d_alice_u) && (supply z (d_w spl_token_id) =? 0) && (balance z d_alice_w =? 0)))
    as (l7 & S7 & B7); [vm_compute; reflexivity|].
  apply N.eqb_eq in B5. apply andb_true_iff in B7. destruct B7 as [B7 B7c]. apply andb_true_iff in B7. destruct B7 as [B7a B7b]. apply N.eqb_eq in B7a, B7b, B7c.
  exists (past_of harsh_story), (now_of harsh_story), l5, l7. split; [apply played_history; vm_compute; reflexivity|].
  split; [apply no_pd_b; vm_compute; reflexivity|]. split; [exact lawful_7|]. split; [vm_compute; reflexivity|]. split; [vm_compute; reflexivity|]. split; [vm_compute; reflexivity|].
  split; [exact S5|]. split; [exact B5|]. split; [exact S7|]. split; [exact B7a|]. split; [exact B7b|exact B7c].
Qed.
Print Assumptions C77_confiscation_refuted.
(** A mint with fees but without fee authority and close authority: 39 wrapped tokens cost one token now and (at two percent) one in epoch 9. *)
Example C77_example : exists past l m z,
  history demo_env past l /\ mint_account l d_u t22_id m /\ fees_settled m /\ fee_for m 5 39 1 /\ fee_for m 9 390 8 /\
  succeeds demo_env (tx_metas (x_unwrap 39)) (Unwrap 39) l z /\ balance z d_alice_u = balance l d_alice_u + (39 - 1).
Proof.
  destruct (redeems demo_env (now_of (fee_story ++ fee_story2)) (fun z => balance z d_alice_u =? balance (now_of (fee_story ++ fee_story2)) d_alice_u + (39 - 1))) as (z & S & B); [vm_compute; reflexivity|].
  apply N.eqb_eq in B. set (m := some_mint (a_data (now_of (fee_story ++ fee_story2) d_u))).
  assert (E : ext_fee m = Some d_fees) by (vm_compute; reflexivity).
  exists (past_of (fee_story ++ fee_story2)), (now_of (fee_story ++ fee_story2)), m, z. split; [apply played_history; vm_compute; reflexivity|].
  split; [unfold mint_account, mint_data; split; [vm_compute; reflexivity|]; split; [vm_compute; reflexivity|vm_compute; reflexivity]|].
  split; [split; [intros f s Q; rewrite fees_ext, E in Q; discriminate Q|vm_compute; reflexivity]|].
  split; [|split; [|split; [exact S|exact B]]].
  - unfold fee_for. rewrite E. right. split; [reflexivity|]. exists 1. split; [split; [cbn; lia|intros y Y; cbn in Y; lia]|reflexivity].
  - unfold fee_for. rewrite E. left. split; [cbn; lia|]. exists 8. split; [split; [cbn; lia|intros y Y; cbn in Y; lia]|reflexivity].
Qed.
