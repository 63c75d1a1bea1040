(** * EscLive.v — lemmas: what the escrow and wrapped-SOL invariants give for redeeming and wrapping. *)
From Verif Require Import Base Codec State Pda TokenProg Cpi Meta Processor Tac CodecProofs PdaProofs TokProofs FrameProofs ProcProofs
  Spec SpecLemmas CreateProofs CreateSpec WrapProofs CloseProofs InvTok InvCons HistorySpec InvState InvTw InvHist EscProofs SolProofs HistProofs.

Lemma esc_settled e0 e l u utp wtp : reachable e0 l -> token_program utp ->
  settled (authority_of e (wrapped_mint_of e u wtp)) u utp (l (escrow_of e u utp wtp)).
Proof.
  intros R T. pose proof (reachable_esc _ _ R) as E. unfold escrow_of, escrow_for.
  destruct (ata_key_of e (authority_for e (wrapped_mint_for e u wtp tw_id) tw_id) u utp) as [b Eb]. rewrite Eb.
  apply E; [apply is_tw_pda_authority|exact T].
Qed.
Lemma genuine_types w mnt p t x : genuine w mnt p t -> In x (map acct_ext_type_of (t_exts t)) ->
  x = XtImmutableOwner \/ x = XtTransferFeeAmount \/ x = XtNonTransferableAccount \/ x = XtTransferHookAccount \/ x = XtPausableAccount.
Proof.
  intros (_ & _ & _ & _ & m & E) H. rewrite E in H. unfold init_account_exts in H. destruct (pk_eqb p spl_token_id); [destruct H|].
  rewrite map_map in H. apply in_map_iff in H. destruct H as (y & Ey & Hy). apply in_app_or in Hy. destruct Hy as [[Hy|[]]|Hy]; [subst y; cbn in Ey; auto|].
  apply filter_In in Hy. destruct Hy as [Hy _]. unfold required_init_account_exts in Hy. apply in_flat_map in Hy. destruct Hy as (z & _ & Hz).
  destruct z; cbn in Hz; try contradiction; repeat (destruct Hz as [Hz|Hz]; [subst y; cbn in Ey; auto 6|]); contradiction.
Qed.
Lemma genuine_no_guard w mnt p t : genuine w mnt p t -> cpi_guard_locked t = false.
Proof.
  intro G. destruct (cpi_guard_locked t) eqn:E; [|reflexivity]. exfalso. unfold cpi_guard_locked in E. apply existsb_exists in E.
  destruct E as (x & Hx & E). destruct x; try discriminate. apply (in_map acct_ext_type_of) in Hx. cbn in Hx.
  destruct (genuine_types _ _ _ _ _ G Hx) as [X|[X|[X|[X|X]]]]; discriminate.
Qed.
Lemma genuine_no_memo w mnt p t : genuine w mnt p t -> memo_required t = false.
Proof.
  intro G. destruct (memo_required t) eqn:E; [|reflexivity]. exfalso. unfold memo_required in E. apply existsb_exists in E.
  destruct E as (x & Hx & E). destruct x; try discriminate. apply (in_map acct_ext_type_of) in Hx. cbn in Hx.
  destruct (genuine_types _ _ _ _ _ G Hx) as [X|[X|[X|[X|X]]]]; discriminate.
Qed.
Lemma settled_tok w mnt p a t : settled w mnt p a -> a_data a = DTok t -> a_owner a = p /\ genuine w mnt p t.
Proof. intros [[B _]|(O & t' & D & G)] E; [rewrite B in E; discriminate|]. split; [exact O|]. assert (t' = t) by (clear -D E; congruence). subst t'. exact G. Qed.

(** Wrapped SOL has no permanent delegate. *)
Lemma native_ever e0 past l u : history e0 past l -> native_mint u -> ever (no_permanent_delegate u) past l.
Proof.
  intros H N x Hx m (O & D & _).
  assert (R : reachable e0 x). { destruct Hx as [<-|Hx]; [exists past; exact H|exact (past_reachable _ _ _ H x Hx)]. }
  destruct R as [px Hpx]. pose proof (history_inv _ _ _ Hpx) as I. destruct N as [-> | ->].
  - destruct (inv_sol _ _ I) as [Q _]. rewrite Q in O. discriminate.
  - destruct (inv_acct _ _ I native_mint_2022_id) as (_ & _ & A). rewrite (A eq_refl O) in D. inversion D; subst. reflexivity.
Qed.
(** What a wrapped-SOL account holds, it holds in lamports. *)
Lemma sol_amount e0 l p k t : reachable e0 l -> token_program p -> a_owner (l k) = p -> a_data (l k) = DTok t -> is_native_mint p (t_mint t) = true ->
  t_amount t <= a_lamports (l k).
Proof.
  intros R T O D N. pose proof (reachable_sol _ _ R) as S. destruct R as [past H]. pose proof (history_inv _ _ _ H) as I.
  destruct (inv_natives_fine _ _ _ I T k t O D) as [_ F]. destruct (t_native t) as [r|] eqn:E; [|exfalso; apply F; [exact N|reflexivity]].
  rewrite <- O in T. specialize (S k T t r D E). lia.
Qed.
