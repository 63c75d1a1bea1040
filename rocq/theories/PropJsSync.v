(** * PropJsSync.v — C69: the JavaScript metadata-sync programs. *)
From Verif Require Import Base Codec State Pda TokenProg Cpi Ata Meta Processor Builders Cli Js JsSync Tac PdaProofs TokProofs ProcProofs Spec HistorySpec CliSpec JsSpec CloseProofs SpecLemmas
  CreateProofs CreateSpec SyncSpec InvState InvHist PropWrap PropEscrow PropReach PropReach2 CliProofs CliSign CliCreate PropCreate PropCli PropCliEscrow PropCliWrap PropCliClose PropCliSync PropCliSyncSpl
  MetaProofs PropSync PropRedeem PropJs PropJsTx PropLifecycle Demo Demo2 DemoHist.

(** ** What they send is what the command line tool sends, told to use the token-wrap program as the "owner program" — JavaScript's
    stand-in for an optional account left out. *)
Lemma js_example_t22_eval e payer u l :
  sg_signs payer = true -> sync_addresses_exist e u t22_id -> derivable e (metaplex_seeds u) mpl_id ->
  js_transaction payer (js_example_sync_to_token_2022 e u) = cli_sync_to_token_2022 e (sg_key payer) u (Some (metaplex_of e u)) (Some tw_id) l.
Proof.
  intros Y (D1 & D2) Dm. unfold js_transaction, js_example_sync_to_token_2022, cli_sync_to_token_2022, js_metaplex, js_pda. change (str_atoms "metadata" ++ [inr mpl_id; inr u]) with (metaplex_seeds u).
  rewrite (findable_get e _ _ Dm). cbn [bind fst]. rewrite js_w_eq, (get_w_ok e u t22_id D1). cbn [bind]. rewrite js_a_eq, (get_a_ok e _ D2). cbn [bind].
  rewrite (js_sign_payer payer _ Y); [reflexivity|]. intros ix [<-|[]]. right. reflexivity.
Qed.
Lemma js_example_spl_eval e payer u l :
  sg_signs payer = true -> sync_addresses_exist e u spl_token_id -> derivable e (metaplex_seeds (wrapped_mint_of e u spl_token_id)) mpl_id ->
  js_transaction payer (js_example_sync_to_spl_token e u) = cli_sync_to_spl_token e (sg_key payer) u (Some tw_id) (Some tw_id) l.
Proof.
  intros Y (D1 & D2) Dm. unfold js_transaction, js_example_sync_to_spl_token, cli_sync_to_spl_token. rewrite js_w_eq, (get_w_ok e u spl_token_id D1). cbn [bind].
  unfold js_metaplex, js_pda, metaplex_find_pda. change (str_atoms "metadata" ++ [inr mpl_id; inr (wrapped_mint_of e u spl_token_id)]) with (metaplex_seeds (wrapped_mint_of e u spl_token_id)).
  rewrite (findable_get e _ _ Dm). cbn [bind fst]. rewrite js_a_eq, (get_a_ok e _ D2). cbn [bind].
  rewrite (js_sign_payer payer _ Y); [reflexivity|]. intros ix [<-|[]]. right. reflexivity.
Qed.

Lemma spl_asks e l u x : a_owner (l u) = spl_token_id -> metaplex_account l (metaplex_of e u) x -> sync_asks e l u (Some (metaplex_of e u)) (Some tw_id).
Proof.
  intros Ou Mx k H.
  assert (K : k = metaplex_of e u).
  { inversion H as [O E|m (O & _) P E|m (O & _) P E|m k' (O & _) P N E]; subst; first [reflexivity|rewrite Ou in O; discriminate O]. }
  rewrite K. split; [right; reflexivity|]. intro O. destruct Mx as [Q _]. exfalso. exact (O Q).
Qed.
Lemma self_home e l u mu k : mint_account l u t22_id mu -> pointer_of mu (Some u) -> ~ metadata_home e l u (Some k).
Proof.
  intros Hu [z Pu] H. inversion H as [O E|m M P E| |m k' M P N E]; subst.
  - destruct Hu as (O' & _). rewrite O in O'. discriminate O'.
  - rewrite (mint_fun _ _ _ _ _ _ M Hu) in P. unfold no_pointer in P. rewrite Pu in P. discriminate P.
  - rewrite (mint_fun _ _ _ _ _ _ M Hu) in P. destruct P as [y P]. rewrite Pu in P. injection P as _ P. exact (N (eq_sym P)).
Qed.

(** ** C69.  sync-spl-to-token2022.ts: for an SPL Token mint with a Metaplex account, whose Token-2022 wrapped mint exists, in every reachable state: the
    program's transaction would leave the wrapped mint showing exactly that metadata, and is accepted if the wrapped mint keeps its size or has the rent
    for its new size; then nothing else changes but the payer's network fee.  Otherwise it is refused for rent. *)
Theorem C69_to_token_2022 : forall e0 e fee payer u l x,
  sg_signs payer = true ->
  reachable e0 l -> same_curve e0 e -> let w := wrapped_mint_of e u t22_id in ~ unallocated l w ->
  sync_addresses_exist e u t22_id -> derivable e (metaplex_seeds u) mpl_id -> (forall x y, e_realloc_ok e x y = true) ->
  a_owner (l u) = spl_token_id -> 0 < lamports l u -> metaplex_account l (metaplex_of e u) x ->
  wallet l (sg_key payer) -> fee + e_rent e 0 <= lamports l (sg_key payer) ->
  exists t m m' t', js_transaction payer (js_example_sync_to_token_2022 e u) = Ok t /\
    mint_account l w t22_id m /\ same_core m m' /\ tight m' /\ own_metadata m' t' /\ copied (from_metaplex e u x) t' /\
    (m_len m' = m_len m \/ e_rent e (m_len m') <= lamports l w ->
       exists l', accepted e fee t l l' /\ l' w = mkAcc (lamports l w) (DMint m') t22_id /\ paid l l' (sg_key payer) fee /\ only_changed l l' [sg_key payer; w]) /\
    (m_len m' <> m_len m -> 0 < lamports l w -> lamports l w < e_rent e (m_len m') ->
       exists l', refused e fee t l l' EAccountNotRentExempt /\ paid l l' (sg_key payer) fee /\ only_changed l l' [sg_key payer]).
Proof.
  intros e0 e fee payer u l x Y R C w Nu Ad Dm Re Ou Lu Mx Wal Fee.
  rewrite (js_example_t22_eval e payer u l Y Ad Dm).
  apply (C46_syncs e0 e fee (sg_key payer) u (Some (metaplex_of e u)) (Some tw_id) l (from_metaplex e u x) R C Nu Ad Dm Lu Re).
  - apply am_spl; [exact Ou|exact Mx].
  - exact (spl_asks e l u x Ou Mx).
  - intros m (O & _). rewrite Ou in O. discriminate O.
  - exact Wal.
  - exact Fee.
Qed.
Print Assumptions C69_to_token_2022.

Lemma js_create_possible e payer u wtp idempotent l t :
  sg_signs payer = true -> spl_or_t22 wtp -> addresses_exist e u wtp -> is_tw_pda (sg_key payer) = false -> (exists size, promised_size wtp size) ->
  js_transaction payer (js_create_mint_helper e payer u wtp idempotent l) = Ok t -> possible t.
Proof.
  intros Y Tw (D1 & _ & D4) Wt [size Sz] J. rewrite (C50_same e payer u wtp idempotent l Tw Y) in J. rewrite (cli_create_mint_eval e (sg_key payer) u wtp idempotent l size Tw D1 D4 Sz) in J.
  injection J as <-. split; cbn [tr_signed tr_ixs]; [intros q [<-|[]]; exact Wt|]. intros ix Hix. unfold fund in Hix.
  apply in_app_or in Hix. destruct Hix as [Hix|Hix]; [destruct (_ <? _) in Hix; [destruct Hix as [<-|[]]; exact I|destruct Hix]|].
  apply in_app_or in Hix. destruct Hix as [Hix|Hix]; [destruct (_ <? _) in Hix; [destruct Hix as [<-|[]]; exact I|destruct Hix]|].
  destruct Hix as [<-|[]]. reflexivity.
Qed.
Lemma prerequisites_aux : forall e0 e fee fee2 payer u idempotent l mu size x w b md,
  sg_signs payer = true -> reachable e0 l -> lawful e0 e ->
  addresses_exist e u t22_id -> derivable e (metaplex_seeds u) mpl_id -> promised_size t22_id size ->
  (forall x y, e_realloc_ok e x y = true) -> (forall x y, x < y -> e_rent e x < e_rent e y) ->
  mint_account l u spl_token_id mu -> 0 < lamports l u -> md = metaplex_of e u -> metaplex_account l md x ->
  w = wrapped_mint_of e u t22_id -> b = backpointer_of e w ->
  unallocated l w -> unallocated l b -> lamports l w <= e_rent e size -> wallet l (sg_key payer) ->
  e_rent e size < two64 -> e_rent e 32 < two64 -> lamports l b < two64 ->
  fee + ((e_rent e size - lamports l w) + (e_rent e 32 - lamports l b)) + fee2 + e_rent e 0 <= lamports l (sg_key payer) ->
  exists t1 l1 t2 l2,
    js_transaction payer (js_create_mint_helper e payer u t22_id idempotent l) = Ok t1 /\ accepted e fee t1 l l1 /\
    js_transaction payer (js_example_sync_to_token_2022 e u) = Ok t2 /\ refused e fee2 t2 l1 l2 EAccountNotRentExempt /\
    paid l1 l2 (sg_key payer) fee2 /\ only_changed l1 l2 [sg_key payer].
Proof.
  intros e0 e fee fee2 payer u idempotent l mu size x w b md Y R La Ad Dm Sz Re Mono Hu Lu Em Mx Ew Eb Uw Ub Lw Wal B1 B2 B4 Fee.
  assert (C : same_curve e0 e) by (destruct La as [Q _]; exact Q). assert (Tw : spl_or_t22 t22_id) by (right; reflexivity).
  pose proof Wal as (Wo & Wd & Wt & Wa). pose proof Hu as (Hu1 & Hu2).
  assert (Eu : spl_or_t22 (a_owner (l u))) by (left; exact Hu1).
  pose proof (C50_creates e fee payer u t22_id idempotent l mu size Y Tw Ad Eu Hu2 Sz) as S1. cbv zeta in S1. rewrite <- Ew in S1. rewrite <- Eb in S1.
  destruct S1 as (t1 & l1 & exts & J1 & A1 & X1 & W1 & K1 & P1 & O1); [exact Uw|exact Ub|exact Wal|exact B1|exact B2|lia|exact B4|lia|].
  pose proof (js_create_possible e payer u t22_id idempotent l t1 Y Tw Ad Wt (ex_intro _ size Sz) J1) as Ps.
  pose proof (C39_reachable e0 e fee t1 l l1 (Ok tt) R La Ps A1) as R1.
  assert (Nup : u <> sg_key payer) by exact (wallet_not_mint l u spl_token_id mu (sg_key payer) Wal (or_introl eq_refl) Hu).
  assert (Nuw : u <> w) by (rewrite Ew; apply unwrapped_neq_wrapped).
  assert (Nub : u <> b). { intro X. destruct Ub as [Q _]. rewrite <- X in Q. destruct Hu2 as [Q2 _]. rewrite Q in Q2. discriminate Q2. }
  assert (U1 : l1 u = l u) by (apply O1; intros [X|[X|[X|[]]]]; [exact (Nup (eq_sym X))|exact (Nuw (eq_sym X))|exact (Nub (eq_sym X))]).
  assert (M1 : l1 md = l md).
  { destruct Mx as [_ D]. apply O1. intros [X|[X|[X|[]]]].
    - rewrite <- X, Wd in D. discriminate D.
    - destruct Uw as [Q _]. rewrite <- X, Q in D. discriminate D.
    - destruct Ub as [Q _]. rewrite <- X, Q in D. discriminate D. }
  assert (Mx1 : metaplex_account l1 md x) by (unfold metaplex_account; rewrite M1; exact Mx).
  assert (Ou1 : a_owner (l1 u) = spl_token_id) by (rewrite U1; exact Hu1).
  assert (Ads : sync_addresses_exist e u t22_id) by (destruct Ad as (D1 & D2 & _); split; assumption).
  set (m := mkMint (Some (authority_of e w)) 0 (m_decimals mu) true (m_freeze mu) exts size) in *.
  rewrite Em in Mx1.
  assert (Hm : mint_account l1 w t22_id m) by (unfold mint_account, mint_data; rewrite W1; split; [reflexivity|split; reflexivity]).
  assert (Nm : forall t, ~ own_metadata m t).
  { intros t Q. destruct X1 as [(Q1 & _)|(_ & X1)]; [discriminate Q1|]. unfold own_metadata, ext_metadata in Q. unfold m in Q. cbn [m_exts] in Q. rewrite X1 in Q. discriminate Q. }
  assert (Lw1 : lamports l1 w = e_rent e (m_len m)) by (unfold lamports, m; rewrite W1; cbn [a_lamports m_len]; lia).
  assert (Lu1 : 0 < lamports l1 u) by (unfold lamports; rewrite U1; exact Lu).
  assert (Wal1 : wallet l1 (sg_key payer)). { destruct P1 as (_ & Q1 & Q2). unfold wallet. rewrite Q1, Q2. exact Wal. }
  assert (Fee2 : fee2 + e_rent e 0 <= lamports l1 (sg_key payer)). { destruct P1 as (Q & _). clear -Q Fee. lia. }
  rewrite Ew in Hm, Lw1.
  destruct (C46_first_sync e0 e fee2 (sg_key payer) u (Some (metaplex_of e u)) (Some tw_id) l1 (from_metaplex e u x) m R1 C Ads Dm Lu1 Re) as (t2 & l2 & J2 & F2 & P2 & O2).
  - apply am_spl; [exact Ou1|exact Mx1].
  - exact (spl_asks e l1 u x Ou1 Mx1).
  - intros m0 (Q & _). rewrite Ou1 in Q. discriminate Q.
  - exact Wal1.
  - exact Fee2.
  - exact Mono.
  - exact Hm.
  - exact Nm.
  - exact Lw1.
  - exists t1, l1, t2, l2. split; [exact J1|]. split; [exact A1|]. split; [rewrite (js_example_t22_eval e payer u l1 Y Ads Dm); exact J2|]. split; [exact F2|]. split; [exact P2|exact O2].
Qed.
(** ** C69 (a finding).  The program's stated prerequisites — the mint, its metadata, and a wrapped mint made by createMint — are not enough: createMint leaves
    the wrapped mint with the rent for its size without metadata (unless the address had more before), so the sync right after it is always refused, for rent. *)
Theorem C69_prerequisites_refuted : forall e0 e fee fee2 payer u idempotent l mu size x,
  sg_signs payer = true -> reachable e0 l -> lawful e0 e ->
  addresses_exist e u t22_id -> derivable e (metaplex_seeds u) mpl_id -> promised_size t22_id size ->
  (forall x y, e_realloc_ok e x y = true) -> (forall x y, x < y -> e_rent e x < e_rent e y) ->
  mint_account l u spl_token_id mu -> 0 < lamports l u -> metaplex_account l (metaplex_of e u) x ->
  let w := wrapped_mint_of e u t22_id in let b := backpointer_of e w in
  unallocated l w -> unallocated l b -> lamports l w <= e_rent e size -> wallet l (sg_key payer) ->
  e_rent e size < two64 -> e_rent e 32 < two64 -> lamports l b < two64 ->
  fee + ((e_rent e size - lamports l w) + (e_rent e 32 - lamports l b)) + fee2 + e_rent e 0 <= lamports l (sg_key payer) ->
  exists t1 l1 t2 l2,
    js_transaction payer (js_create_mint_helper e payer u t22_id idempotent l) = Ok t1 /\ accepted e fee t1 l l1 /\ 
    js_transaction payer (js_example_sync_to_token_2022 e u) = Ok t2 /\ refused e fee2 t2 l1 l2 EAccountNotRentExempt /\
    paid l1 l2 (sg_key payer) fee2 /\ only_changed l1 l2 [sg_key payer].
Proof.
  intros e0 e fee fee2 payer u idempotent l mu size x Y R La Ad Dm Sz Re Mono Hu Lu Mx w b Uw Ub Lw Wal B1 B2 B4 Fee.
  exact (prerequisites_aux e0 e fee fee2 payer u idempotent l mu size x w b (metaplex_of e u) Y R La Ad Dm Sz Re Mono Hu Lu eq_refl Mx eq_refl eq_refl Uw Ub Lw Wal B1 B2 B4 Fee).
Qed.
Print Assumptions C69_prerequisites_refuted.

(** ** C69.  sync-token2022-to-spl.ts: for a Token-2022 mint that holds its own metadata, whose SPL Token wrapped mint exists, in every reachable state: the
    program's transaction is accepted and leaves the wrapped mint's Metaplex account — made at the expense of the wrapped mint's authority, or
    updated — showing that metadata; nothing else changes but the payer's network fee. *)
Theorem C69_to_spl_token : forall e0 e fee payer u l mu src,
  sg_signs payer = true ->
  reachable e0 l -> same_curve e0 e -> let w := wrapped_mint_of e u spl_token_id in let a := authority_of e w in let md := metaplex_of e w in ~ unallocated l w ->
  sync_addresses_exist e u spl_token_id -> derivable e (metaplex_seeds w) mpl_id -> derivable e (metaplex_seeds u) mpl_id ->
  mint_account l u t22_id mu -> pointer_of mu (Some u) -> own_metadata mu src ->
  (forall k v, In (k, v) (tm_additional src) -> ~ malformed e k v) ->
  wallet l (sg_key payer) -> md <> sg_key payer -> fee + e_rent e 0 <= lamports l (sg_key payer) ->
  (to_be_made e l md a /\ (forall d, converted e src d -> metaplex_accepts e None d)) \/
  (exists old, ours l md a old /\ forall d, converted e src d -> metaplex_accepts e (mx_collection old) d) ->
  exists t l' d x', js_transaction payer (js_example_sync_to_spl_token e u) = Ok t /\ accepted e fee t l l' /\
    converted e src d /\ metaplex_account l' md x' /\ shows x' d /\ no_verified_creator x' /\ mx_update_authority x' = a /\ paid l l' (sg_key payer) fee /\
    (unallocated l md -> mx_mint x' = w /\ mx_is_mutable x' = true /\ lamports l' md = lamports l md + e_mpl_cost e /\ lamports l a = lamports l' a + e_mpl_cost e /\
       a_data (l' a) = a_data (l a) /\ a_owner (l' a) = a_owner (l a) /\ only_changed l l' [sg_key payer; md; a]) /\
    (forall old, ours l md a old -> same_metaplex_frame old x' /\ lamports l' md = lamports l md /\ only_changed l l' [sg_key payer; md]).
Proof.
  intros e0 e fee payer u l mu src Y R C w a md Nu Ad Dw Du Hu Pu Om Mf Wal Np Fee Dis.
  rewrite (js_example_spl_eval e payer u l Y Ad Dw).
  apply (C47_syncs e0 e fee (sg_key payer) u (Some tw_id) (Some tw_id) l src R C Nu Ad Dw Du).
  - exact (am_self e l u mu src Hu Pu Om).
  - intros k H. exfalso. exact (self_home e l u mu k Hu Pu H).
  - intros m M [z P]. rewrite (mint_fun l u _ _ _ _ M Hu) in P. destruct Pu as [z' Pu]. rewrite Pu in P. injection P as _ P.
    exact (wallet_not_mint l u t22_id mu (sg_key payer) Wal (or_intror eq_refl) Hu P).
  - exact Mf.
  - exact Wal.
  - exact Np.
  - exact Fee.
  - exact Dis.
Qed.
Print Assumptions C69_to_spl_token.

(** ** Examples *)
(** The demo mint is given a Metaplex account, by the Metaplex program. *)
Definition d_umd : pubkey := metaplex_of demo_env d_u.
Definition with_mpl (l : ledger) : ledger := upd l d_umd (mkAcc 5000 (DMpl s_mx) mpl_id).
Lemma with_mpl_reachable l : reachable demo_env l -> ~ ruled (a_owner (l d_umd)) -> reachable demo_env (with_mpl l).
Proof.
  intros R N. apply (reach_step demo_env AWorld l _ R). apply st_world. apply world_upd; [exact N| | |].
  - intros [X|X]; vm_compute in X; discriminate X.
  - intros [X|X]; vm_compute in X; discriminate X.
  - intros [X|[X|X]]; vm_compute in X; discriminate X.
Qed.
Definition js_bob : signer := mkSigner d_bob true.
Definition js_md (n : N) : list cmd :=
  [ CFund d_bob 1000; CFund (d_w t22_id) n; CFund (d_b t22_id) 4000; CAlloc d_u 82 90000 spl_token_id;
    CTok spl_token_id [meta_w d_u false] (TiInitializeMint2 6 d_mintauth None); CTw i_create ].
Example C69_to_token_2022_example : exists t l' m' t', js_transaction js_bob (js_example_sync_to_token_2022 demo_env d_u) = Ok t /\
  accepted demo_env 5 t (with_mpl (now_of (js_md 90000))) l' /\ l' (d_w t22_id) = mkAcc 90000 (DMint m') t22_id /\ own_metadata m' t' /\ tm_name t' = "Coin"%string.
Proof.
  destruct (C69_to_token_2022 demo_env demo_env 5 js_bob d_u (with_mpl (now_of (js_md 90000))) s_mx) as (t & m & m' & t' & H1 & _ & _ & _ & Om & Sh & Acc & Ref).
  - reflexivity.
  - apply with_mpl_reachable; [eexists; apply played_history; vm_compute; reflexivity|]. intros [X|[X|X]]; vm_compute in X; discriminate X.
  - apply same_curve_refl.
  - intros [X _]; vm_compute in X; discriminate X.
  - split; apply demo_derivable.
  - apply demo_derivable.
  - intros x y. reflexivity.
  - vm_compute. reflexivity.
  - vm_compute. reflexivity.
  - vm_compute. split; reflexivity.
  - vm_compute. repeat split; reflexivity.
  - vm_compute. discriminate.
  - assert (T : exists tx, js_transaction js_bob (js_example_sync_to_token_2022 demo_env d_u) = Ok tx /\
                match snd (send demo_env 5 tx (with_mpl (now_of (js_md 90000)))) with Ok _ => true | Err _ => false end = true).
    { eexists. split; [vm_compute; reflexivity|]. vm_compute. reflexivity. }
    destruct T as (tx & T1 & T2). rewrite T1 in H1. injection H1 as H1. rewrite H1 in *. destruct Acc as (l' & A1 & A2 & _).
    { destruct (N.eq_dec (m_len m') (m_len m)) as [E|E]; [left; exact E|right]. apply N.le_ngt. intro Lt. destruct (Ref E) as (l' & F & _); [vm_compute; reflexivity|exact Lt|].
      unfold refused in F. rewrite F in T2. cbn [snd] in T2. discriminate T2. }
    exists t, l', m', t'. split; [exact T1|]. split; [exact A1|].
    split; [change (d_w t22_id) with (wrapped_mint_of demo_env d_u t22_id); rewrite A2; f_equal; vm_compute; reflexivity|]. split; [exact Om|].
    destruct Sh as [Sh _]. rewrite Sh. reflexivity.
Qed.
Print Assumptions C69_to_token_2022_example.
(** createMint, then the sync program: refused. *)
Lemma js_md_reachable : reachable demo_env (with_mpl (now_of cli_setup)).
Proof. apply with_mpl_reachable; [exact cli_setup_reachable|]. intros [X|[X|X]]; vm_compute in X; discriminate X. Qed.
Lemma js_md_unallocated k : k = d_w t22_id \/ k = d_b t22_id -> unallocated (with_mpl (now_of cli_setup)) k /\ lamports (with_mpl (now_of cli_setup)) k = 0.
Proof. intros [-> | ->]; vm_compute; repeat split; reflexivity. Qed.
Definition js_alice2 : signer := mkSigner d_alice true.
Example C69_prerequisites_example : exists t1 l1 t2 l2,
  js_transaction js_alice2 (js_create_mint_helper demo_env js_alice2 d_u t22_id false (with_mpl (now_of cli_setup))) = Ok t1 /\
  accepted demo_env 5 t1 (with_mpl (now_of cli_setup)) l1 /\
  js_transaction js_alice2 (js_example_sync_to_token_2022 demo_env d_u) = Ok t2 /\ refused demo_env 5 t2 l1 l2 EAccountNotRentExempt.
Proof.
  destruct (js_md_unallocated (d_w t22_id) (or_introl eq_refl)) as [U1 L1]. destruct (js_md_unallocated (d_b t22_id) (or_intror eq_refl)) as [U2 L2].
  destruct (C69_prerequisites_refuted demo_env demo_env 5 5 js_alice2 d_u false (with_mpl (now_of cli_setup)) cli_mint 303 s_mx) as (t1 & l1 & t2 & l2 & J1 & A1 & J2 & F2 & _).
  - reflexivity.
  - exact js_md_reachable.
  - exact demo_lawful.
  - exact cli_addresses.
  - apply demo_derivable.
  - right. split; reflexivity.
  - intros x y. reflexivity.
  - intros x y Lt. cbn [demo_env e_rent]. clear -Lt. lia.
  - vm_compute. repeat split; reflexivity.
  - vm_compute. reflexivity.
  - vm_compute. split; reflexivity.
  - exact U1.
  - exact U2.
  - change (lamports (with_mpl (now_of cli_setup)) (d_w t22_id) <= e_rent demo_env 303). rewrite L1. vm_compute. discriminate.
  - vm_compute. repeat split; reflexivity.
  - vm_compute. reflexivity.
  - vm_compute. reflexivity.
  - change (lamports (with_mpl (now_of cli_setup)) (d_b t22_id) < two64). rewrite L2. reflexivity.
  - vm_compute. discriminate.
  - exists t1, l1, t2, l2. split; [exact J1|]. split; [exact A1|]. split; [exact J2|exact F2].
Qed.
Print Assumptions C69_prerequisites_example.
Example C69_to_spl_token_example : exists t l' x', js_transaction js_bob (js_example_sync_to_spl_token demo_env d_u) = Ok t /\
  accepted demo_env 5 t (now_of cli_spl_md) l' /\ metaplex_account l' d_md x' /\ padded 32 "Coin" (mx_name x') /\ mx_mint x' = d_w spl_token_id.
Proof.
  assert (M : exists mu, a_data (now_of cli_spl_md d_u) = DMint mu /\ a_owner (now_of cli_spl_md d_u) = t22_id) by (eexists; split; vm_compute; reflexivity).
  destruct M as [mu [Hm Ho]].
  assert (X : m_init mu = true /\ ext_pointer mu = Some (Some d_mintauth, Some d_u) /\ exists t, own_metadata mu t /\ tm_name t = "Coin"%string /\ tm_additional t = [("seller_fee_basis_points", "250")]%string).
  { clear Ho. revert Hm; vm_compute; intro X; inversion X; subst mu; (split; [reflexivity|split; [reflexivity|eexists; split; [reflexivity|split; reflexivity]]]). }
  destruct X as (X1 & Pu & src & Ou & Nm & Fl). assert (Mu : mint_account (now_of cli_spl_md) d_u t22_id mu) by (split; [exact Ho|split; [exact Hm|exact X1]]).
  assert (N2 : numeral_u16 "250"%string 250) by (apply parse_u16_numeral; vm_compute; reflexivity).
  destruct (C69_to_spl_token demo_env demo_env 5 js_bob d_u (now_of cli_spl_md) mu src) as (t & l' & d & x' & H1 & Acc & Cv & Mx & Sh & _ & _ & _ & New & _).
  - reflexivity.
  - eexists. apply played_history. vm_compute. reflexivity.
  - apply same_curve_refl.
  - intros [X _]; vm_compute in X; discriminate X.
  - split; apply demo_derivable.
  - apply demo_derivable.
  - apply demo_derivable.
  - exact Mu.
  - exists (Some d_mintauth). exact Pu.
  - exact Ou.
  - intros k v Hin. rewrite Fl in Hin. destruct Hin as [Hin|[]]. injection Hin as <- <-. intros [[Q _]|[[_ Q]|[[Q _]|[Q _]]]]; try discriminate Q. exact (Q 250 N2).
  - vm_compute. repeat split; reflexivity.
  - vm_compute. discriminate.
  - vm_compute. discriminate.
  - left. split.
    + split; [split; vm_compute; reflexivity|]. split; [vm_compute; discriminate|]. split; [left; vm_compute; reflexivity|vm_compute; discriminate].
    + intros d (_ & _ & _ & _ & _ & _ & _ & Hc & _). split; [reflexivity|]. intros c Q. rewrite Hc in Q; [discriminate Q|]. rewrite Fl. intros [W|[]]. discriminate W.
  - exists t, l', x'. split; [exact H1|]. split; [exact Acc|]. split; [exact Mx|].
    destruct New as (Mm & _); [split; vm_compute; reflexivity|].
    destruct Cv as (Dn & _). destruct Sh as (Sn & _). split; [rewrite <- Nm, <- Dn; exact Sn|exact Mm].
Qed.
Print Assumptions C69_to_spl_token_example.
