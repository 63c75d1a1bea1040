(** * GlobalProofs.v — facts about every instruction: privileges, lamports, ownership. *)
From Verif Require Import Base Codec State Pda TokenProg Cpi Meta Processor Tac TokProofs PdaProofs FrameProofs ProcProofs Spec SpecLemmas.

(** ** Privileges and lamports *)
Definition rs (c : ctx) (l l' : ledger) : Prop := ro_frame (c_infos c) l l' /\ sum_frame (c_infos c) l l'.
Lemma rs_refl c l : rs c l l.
Proof. split; [apply ro_refl|apply sum_refl]. Qed.
Lemma rs_trans c l1 l2 l3 : rs c l1 l2 -> rs c l2 l3 -> rs c l1 l3.
Proof. intros [A B] [C D]. split; [eapply ro_trans; eauto|eapply sum_trans; eauto]. Qed.
Lemma rs_invoke e c borrowed ix passed seeds l l' : invoke_signed e c borrowed ix passed seeds l = Ok l' -> rs c l l'.
Proof. apply invoke_signed_rs. Qed.
Lemma rs_invoke0 e c borrowed ix passed l l' : invoke e c borrowed ix passed l = Ok l' -> rs c l l'.
Proof. apply invoke_signed_rs. Qed.
Lemma rs_write_key c k v l l' : write_key c k v l = Ok l' -> rs c l l'.
Proof.
  unfold write_key; intro H. apply bind_ok in H; destruct H as [[] [_ H]]. apply bind_ok in H; destruct H as [[] [W H]]. apply guard_ok in W.
  apply bind_ok in H; destruct H as [[] [O H]]. apply orb_true_iff in W. destruct W as [W|W].
  - assert (H' : set_data (c_prog c) (c_infos c) k (DKey v) l = Ok l') by (unfold set_data; rewrite W; cbn [guard bind]; rewrite O; exact H).
    apply frame_set_data in H'. destruct H' as (A & B & _). split; auto.
  - injection H as <-. unfold holds_key in W. destruct (a_data (l k)) eqn:D; try discriminate W. apply pk_eqb_eq in W. subst.
    assert (E : forall x, upd l k (with_data (DKey v) (l k)) x = l x).
    { intro x. destruct (pk_dec x k) as [->|N]; [rewrite upd_same|rewrite upd_other by (intro Q; apply N; symmetry; exact Q); reflexivity]. destruct (l k); cbn in *; unfold with_data; cbn; congruence. }
    split; [intros x _; apply E|]. intros ks _ _. apply sum_ext. intros x _. rewrite E. reflexivity.
Qed.
Lemma rs_init_ext e c p w x l l' : invoke_init_ext e c p w x l = Ok l' -> rs c l l'.
Proof. unfold invoke_init_ext; intro H; inv_ok. eapply rs_invoke0; eauto. Qed.
Lemma rs_transfer_checked e c b p s m d a add n dec seeds l l' :
  invoke_transfer_checked e c b p s m d a add n dec seeds l = Ok l' -> rs c l l'.
Proof. unfold invoke_transfer_checked; intro H; inv_ok. eapply rs_invoke; eauto. Qed.
Lemma rs_transfer_checked_fee e c b p s m d a add n dec fee seeds l l' :
  invoke_transfer_checked_with_fee e c b p s m d a add n dec fee seeds l = Ok l' -> rs c l l'.
Proof. unfold invoke_transfer_checked_with_fee; intro H; inv_ok. eapply rs_invoke; eauto. Qed.
Lemma rs_update_fields e c p w a fs t t' seeds l l' : update_fields_if_changed e c p w a fs t t' seeds l = Ok l' -> rs c l l'.
Proof.
  revert l; induction fs as [|f r IH]; intros l H; cbn [update_fields_if_changed] in H; inv_ok; subst; [apply rs_refl|].
  eapply rs_trans; [|eapply IH; eauto].
  destruct (String.eqb _ _); inv_ok; subst; [apply rs_refl|]. unfold cpi_update_field in *. eapply rs_invoke; eauto.
Qed.
Lemma rs_sync_additional e c p w a seeds kvs hm l r : sync_additional e c p w a seeds kvs hm l = Ok r -> rs c l (snd r).
Proof.
  revert hm l; induction kvs as [|[k v] kvs IH]; intros hm l H; cbn [sync_additional] in H; inv_ok; subst; [apply rs_refl|].
  eapply rs_trans; [|eapply IH; eauto].
  destruct (opt_string_eqb _ _); inv_ok; subst; [apply rs_refl|]. unfold cpi_update_field in *. eapply rs_invoke; eauto.
Qed.
Lemma rs_remove_stale e c p w a seeds ks l l' : remove_stale e c p w a seeds ks l = Ok l' -> rs c l l'.
Proof.
  revert l; induction ks as [|k ks IH]; intros l H; cbn [remove_stale] in H; inv_ok; subst; [apply rs_refl|].
  eapply rs_trans; [eapply rs_invoke; eauto|eapply IH; eauto].
Qed.
Lemma rs_add_all e c p w a seeds kvs l l' : add_all e c p w a seeds kvs l = Ok l' -> rs c l l'.
Proof.
  revert l; induction kvs as [|[k v] kvs IH]; intros l H; cbn [add_all] in H; inv_ok; subst; [apply rs_refl|].
  unfold cpi_update_field in *. eapply rs_trans; [eapply rs_invoke; eauto|eapply IH; eauto].
Qed.

Ltac rs_one :=
  match goal with
  | H : invoke_signed _ _ _ _ _ _ ?l = Ok ?l' |- _ => apply rs_invoke in H
  | H : invoke _ _ _ _ _ ?l = Ok ?l' |- _ => apply rs_invoke0 in H
  | H : write_key _ _ _ ?l = Ok ?l' |- _ => apply rs_write_key in H
  | H : invoke_init_ext _ _ _ _ _ ?l = Ok ?l' |- _ => apply rs_init_ext in H
  | H : invoke_transfer_checked _ _ _ _ _ _ _ _ _ _ _ _ _ = Ok _ |- _ => apply rs_transfer_checked in H
  | H : invoke_transfer_checked_with_fee _ _ _ _ _ _ _ _ _ _ _ _ _ _ = Ok _ |- _ => apply rs_transfer_checked_fee in H
  | H : update_fields_if_changed _ _ _ _ _ _ _ _ _ _ = Ok _ |- _ => apply rs_update_fields in H
  | H : sync_additional _ _ _ _ _ _ _ _ _ = Ok _ |- _ => apply rs_sync_additional in H
  | H : remove_stale _ _ _ _ _ _ _ _ = Ok _ |- _ => apply rs_remove_stale in H
  | H : add_all _ _ _ _ _ _ _ _ = Ok _ |- _ => apply rs_add_all in H
  end.
Ltac rs_done := solve [apply rs_refl | eassumption | eapply rs_trans; [eassumption|]; rs_done].

Lemma rs_default_init e c w p l l' : default_init e c w p l = Ok l' -> rs c l l'.
Proof. unfold default_init; intro H; inv_ok. repeat rs_one. eapply rs_trans; eauto. Qed.
Lemma rs_compliance_init e c w p l l' : compliance_init e c w p l = Ok l' -> rs c l l'.
Proof. unfold compliance_init; intro H; inv_ok. repeat rs_one. do 3 (eapply rs_trans; eauto). Qed.

(** Any customizer that respects privileges yields a CreateMint that does. *)
Lemma rs_create_mint cu e c idem l l' :
  (forall l l' w p, cu_init cu e c w p l = Ok l' -> rs c l l') ->
  process_create_mint cu e c idem l = Ok l' -> rs c l l'.
Proof.
  intros Hcu H. unfold process_create_mint in H.
  destruct (c_infos c) as [|wi [|bi [|ui [|? [|pi ?]]]]] eqn:Ec; try discriminate. inv_ok.
  destruct ((0 <? _) || (0 <? _)); [inv_ok; subst; apply rs_refl|]. inv_ok.
  match goal with H : (if _ then cu_init _ _ _ _ _ ?x else Ok ?x) = Ok ?y |- _ => assert (rs c x y) by
    (destruct (pk_eqb (i_key pi) t22_id); inv_ok; subst; [eapply Hcu; eauto|apply rs_refl]); clear H end.
  repeat rs_one.
  repeat (eapply rs_trans; [eassumption|]). apply rs_refl.
Qed.
Lemma rs_wrap e c amount l l' : process_wrap e c amount l = Ok l' -> rs c l l'.
Proof.
  intro H. unfold process_wrap in H. inv_ok.
  destruct (c_infos c) as [|? [|? [|? [|? [|? [|? [|? [|? [|? ?]]]]]]]]] eqn:Ec; try discriminate. inv_ok.
  match goal with H : (if pk_eqb ?p t22_id then _ else _) = Ok _ |- _ => destruct (pk_eqb p t22_id) end;
    repeat rs_one; (eapply rs_trans; [eassumption|]; eassumption).
Qed.
Lemma rs_unwrap e c amount l l' : process_unwrap e c amount l = Ok l' -> rs c l l'.
Proof.
  intro H. unfold process_unwrap in H. inv_ok.
  destruct (c_infos c) as [|? [|? [|? [|? [|? [|? [|? [|? [|? ?]]]]]]]]] eqn:Ec; try discriminate. inv_ok.
  repeat rs_one. eapply rs_trans; eassumption.
Qed.
Lemma rs_close e c l l' : process_close_stuck_escrow e c l = Ok l' -> rs c l l'.
Proof.
  intro H. unfold process_close_stuck_escrow in H.
  destruct (c_infos c) as [|? [|? [|? [|? [|? [|? ?]]]]]] eqn:Ec; try discriminate. inv_ok.
  repeat rs_one. assumption.
Qed.
Lemma rs_sync_t22 e c l l' : process_sync_metadata_to_token_2022 e c l = Ok l' -> rs c l l'.
Proof.
  intro H. unfold process_sync_metadata_to_token_2022 in H.
  destruct (c_infos c) as [|? [|? [|? [|? ?]]]] eqn:Ec; try discriminate. inv_ok.
  destruct (ext_metadata _); inv_ok; repeat rs_one; repeat (eapply rs_trans; [eassumption|]); apply rs_refl.
Qed.
Lemma rs_sync_spl e c l l' : process_sync_metadata_to_spl_token e c l = Ok l' -> rs c l l'.
Proof.
  intro H. unfold process_sync_metadata_to_spl_token in H.
  destruct (c_infos c) as [|? [|? [|? [|? [|? [|? [|? ?]]]]]]] eqn:Ec; try discriminate. inv_ok.
  destruct (data_is_empty _); repeat rs_one; assumption.
Qed.
Lemma rs_set_pointer e c k l l' : process_set_canonical_pointer e c k l = Ok l' -> rs c l l'.
Proof.
  intro H. unfold process_set_canonical_pointer in H.
  destruct (c_infos c) as [|? [|? [|? [|? ?]]]] eqn:Ec; try discriminate. inv_ok.
  match goal with H : (if data_is_empty _ then _ else Ok ?x) = Ok ?y |- _ => assert (rs c x y) by
    (destruct (data_is_empty _); inv_ok; subst; repeat rs_one; [eapply rs_trans; eassumption|apply rs_refl]); clear H end.
  repeat rs_one. eapply rs_trans; eassumption.
Qed.
Lemma rs_process e c input l l' : process_instruction e c input l = Ok l' -> rs c l l'.
Proof.
  unfold process_instruction; intro H; inv_ok. destruct (map_instr _ _); cbn [process_instr] in H.
  - eapply rs_create_mint; [|eassumption]. intros; eapply rs_default_init; eauto.
  - eapply rs_wrap; eauto.
  - eapply rs_unwrap; eauto.
  - eapply rs_close; eauto.
  - eapply rs_sync_t22; eauto.
  - eapply rs_sync_spl; eauto.
  - eapply rs_set_pointer; eauto.
Qed.

(** ** Ownership *)
From Verif Require Import CreateProofs SyncProofs SyncProofs2 CloseProofs.
Definition own4 (e : env) (hooked : Prop) (l l' : ledger) : Prop :=
  forall k, ~ involved_program (a_owner (l k)) ->
    same_data_and_owner l l' k \/ (a_owner (l k) = system_id /\ no_data l k /\ created_address e k) \/ hooked.
Lemma own4_refl e h l : own4 e h l l.
Proof. intros k _; left; split; reflexivity. Qed.
Lemma own4_except e h l l' (P : pubkey -> Prop) :
  (forall k, P k -> involved_program (a_owner (l k)) \/ (a_owner (l k) = system_id /\ no_data l k /\ created_address e k) \/ same_data_and_owner l l' k) ->
  (forall k, ~ P k -> l' k = l k) -> (forall k, P k \/ ~ P k) -> own4 e h l l'.
Proof.
  intros H1 H2 Hd k Hk. destruct (Hd k) as [HP|HP].
  - destruct (H1 k HP) as [|[|]]; auto. contradiction.
  - left. unfold same_data_and_owner. rewrite (H2 k HP). split; reflexivity.
Qed.
Lemma own4_frame e h p ms l l' : involved_program p -> frame p ms l l' -> own4 e h l l'.
Proof.
  intros Hp (_ & _ & H) k Hk. left. destruct (H k) as (A & B & _); [intro X; apply Hk; now rewrite X|]. split; assumption.
Qed.
Lemma own4_trans e h l1 l2 l3 : own4 e h l1 l2 -> own4 e h l2 l3 -> own4 e h l1 l3.
Proof.
  intros H1 H2 k Hk. destruct (H1 k Hk) as [[A B]|[X|X]]; auto.
  destruct (H2 k) as [[C D]|[(C & D & E)|X]]; auto.
  - now rewrite B.
  - left; split; congruence.
  - right; left. unfold no_data in *. rewrite <- A, <- B. auto.
Qed.
Lemma involved_token p : token_program p -> involved_program p.
Proof. unfold token_program, involved_program; tauto. Qed.
Lemma own4_transfer e (h : Prop) prog cpi ms src mnt dst auth signers amount dec expfee l l' :
  token_program prog ->
  tok_transfer_checked e prog cpi ms src mnt dst auth signers amount dec expfee l = Ok l' ->
  (forall m, unpack_mint prog (a_data (l mnt)) = Ok m -> ext_hook m <> None -> h) ->
  own4 e h l l'.
Proof.
  intros Hp H Hh. apply transfer_checked_frame in H. destruct H as (m & l3 & Hm & Hf & Hl).
  eapply own4_frame in Hf; [|apply involved_token, Hp]. destruct Hl as [->|Hl]; [exact Hf|].
  destruct (ext_hook m) eqn:Eh.
  - intros k _. right; right. apply (Hh m Hm). congruence.
  - apply run_hook_none in Hl; [|assumption]. subst. exact Hf.
Qed.
Lemma map_cons_inv {A B} (f : A -> B) l b r : map f l = b :: r -> exists a l', l = a :: l' /\ f a = b /\ map f l' = r.
Proof. destruct l; cbn; intro H; inversion H; eauto. Qed.
Lemma keys_case (accounts : list info) (n : nat) :
  (length accounts < n)%nat \/ exists ks more, length ks = n /\ map i_key accounts = ks ++ more.
Proof.
  destruct (Nat.ltb (length accounts) n) eqn:E; [left; now apply Nat.ltb_lt|right].
  apply Nat.ltb_ge in E. exists (firstn n (map i_key accounts)), (skipn n (map i_key accounts)).
  rewrite firstn_skipn, firstn_length, map_length, Nat.min_l by assumption. auto.
Qed.

(** The wrap and unwrap steps that run a transfer hook. *)
Definition hook_runs (l : ledger) : Prop := exists u m, mint_data l u m /\ ext_hook m <> None.

Lemma own4_create e h c idem l l' : c_prog c = tw_id -> process_create_mint default_customizer e c idem l = Ok l' -> own4 e h l l'.
Proof.
  intros Hc H. destruct (map i_key (c_infos c)) as [|w [|b [|u [|x [|p rest]]]]] eqn:Ek;
    try (unfold process_create_mint in H; destruct (c_infos c) as [|? [|? [|? [|? [|? ?]]]]]; discriminate).
  destruct (process_create_inv _ _ _ _ _ _ _ _ _ _ _ Ek Hc H) as (Hw & Hb & _ & [(_ & _ & _ & _ & ->)|X]); [apply own4_refl|].
  destruct X as (E1 & E2 & O1 & O2 & _ & _ & _ & _ & _ & mu & _ & _ & _ & Hr).
  apply own4_except with (P := fun k => k = w \/ k = b).
  - intros k [->| ->]; right; left; (split; [assumption|]); (split; [assumption|]).
    + left. exists u, p. exact Hw.
    + right; left. exists w. exact Hb.
  - intros k Hk. apply Hr; tauto.
  - intros k. destruct (pk_dec k w), (pk_dec k b); tauto.
Qed.
Lemma own4_wrap e (h : Prop) c amount l l' : (hook_runs l -> h) -> c_prog c = tw_id -> process_wrap e c amount l = Ok l' -> own4 e h l l'.
Proof.
  intros Hh0 Hc H. destruct (map i_key (c_infos c)) as [|r [|w [|a [|up [|wp [|s [|u [|esc [|ta rest]]]]]]]]] eqn:Ek;
    try (unfold process_wrap in H; inv_ok; destruct (c_infos c) as [|? [|? [|? [|? [|? [|? [|? [|? [|? ?]]]]]]]]]; discriminate).
  destruct (process_wrap_inv _ _ _ _ _ _ _ _ _ _ _ _ _ _ _ Ek Hc H)
    as (_ & Hup & Hwp & _ & _ & _ & et & um & ms & extra & l1 & msm & _ & _ & Hum & _ & _ & _ & Ht & _ & _ & Hm).
  eapply own4_trans.
  - eapply own4_transfer; [exact Hup|exact Ht|]. intros m Hm' Hh. apply unpack_mint_inv in Hm'. destruct Hm' as (D & I & _).
    apply Hh0. exists u, m. split; [split; assumption|assumption].
  - eapply own4_frame; [apply involved_token, Hwp|eapply frame_mint_to; exact Hm].
Qed.
Lemma own4_unwrap e (h : Prop) c amount l l' : (hook_runs l -> h) -> c_prog c = tw_id -> process_unwrap e c amount l = Ok l' -> own4 e h l l'.
Proof.
  intros Hh0 Hc H. destruct (map i_key (c_infos c)) as [|esc [|r [|a [|u [|wp [|up [|s [|w [|ta rest]]]]]]]]] eqn:Ek;
    try (unfold process_unwrap in H; inv_ok; destruct (c_infos c) as [|? [|? [|? [|? [|? [|? [|? [|? [|? ?]]]]]]]]]; discriminate).
  destruct (process_unwrap_inv _ _ _ _ _ _ _ _ _ _ _ _ _ _ _ Ek Hc H)
    as (_ & Hup & Hwp & Hw & _ & _ & msk & msb & l1 & um & extra & ms & _ & _ & Hb & Hum & _ & _ & Ht).
  pose proof (frame_burn _ _ _ _ _ _ _ _ _ _ Hb) as Fb.
  eapply own4_trans; [eapply own4_frame; [apply involved_token, Hwp|exact Fb]|].
  eapply own4_transfer; [exact Hup|exact Ht|]. intros m Hm' Hh.
  apply unpack_mint_inv in Hm'. destruct Hm' as (D & I & _).
  apply burn_inv in Hb.
  destruct Hb as (ts & mw & s1 & Ds & Dw & _ & _ & _ & _ & _ & _ & _ & _ & _ & _ & _ & ->).
  destruct (pk_dec w u) as [Ewu|Nwu]; [exfalso; rewrite Ewu in Hw; eapply wrapped_neq_unwrapped; symmetry; exact Hw|].
  rewrite upd_other in D by assumption.
  destruct (pk_dec s u) as [Esu|Nsu]; [subst s; rewrite upd_same in D; discriminate|].
  rewrite upd_other in D by assumption. apply Hh0. exists u, m. split; [split; assumption|assumption].
Qed.
Lemma own4_close e h c l l' : c_prog c = tw_id -> process_close_stuck_escrow e c l = Ok l' -> own4 e h l l'.
Proof.
  intros Hc H. destruct (map i_key (c_infos c)) as [|esc [|d [|u [|w [|a [|p rest]]]]]] eqn:Ek;
    try (unfold process_close_stuck_escrow in H; destruct (c_infos c) as [|? [|? [|? [|? [|? [|? ?]]]]]]; discriminate).
  destruct (process_close_inv _ _ _ _ _ _ _ _ _ _ _ Ek Hc H) as (_ & _ & _ & _ & _ & et & m & msc & _ & _ & _ & _ & _ & _ & _ & _ & _ & Ht).
  eapply own4_frame; [apply involved_token; right; reflexivity|eapply frame_close; exact Ht].
Qed.
Lemma own4_sync_t22 e h c l l' : c_prog c = tw_id -> process_sync_metadata_to_token_2022 e c l = Ok l' -> own4 e h l l'.
Proof.
  intros Hc H. destruct (map i_key (c_infos c)) as [|w [|a [|u [|p rest]]]] eqn:Ek;
    try (unfold process_sync_metadata_to_token_2022 in H; destruct (c_infos c) as [|? [|? [|? [|? ?]]]]; discriminate).
  destruct (process_sync_t22_inv _ _ _ _ _ _ _ _ _ Ek Hc H) as (_ & Ho & _ & _ & um & m & _ & _ & X).
  apply own4_except with (P := fun k => k = w).
  - intros k ->. left. rewrite Ho. unfold involved_program; tauto.
  - intros k Hk. destruct X as [(t & _ & Hi & _)|(_ & _ & _ & Hi & _)]; auto.
  - intros k. destruct (pk_dec k w); tauto.
Qed.
Lemma own4_sync_spl e h c l l' : c_prog c = tw_id -> process_sync_metadata_to_spl_token e c l = Ok l' -> own4 e h l l'.
Proof.
  intros Hc H. destruct (map i_key (c_infos c)) as [|md [|a [|w [|u [|x [|sy [|rn rest]]]]]]] eqn:Ek;
    try (unfold process_sync_metadata_to_spl_token in H; destruct (c_infos c) as [|? [|? [|? [|? [|? [|? [|? ?]]]]]]]; discriminate).
  destruct (process_sync_spl_inv _ _ _ _ _ _ _ _ _ _ _ _ Ek Hc H) as (_ & _ & _ & Ha & Hmd & _ & um & d & _ & _ & X).
  destruct X as [(De & Om & _ & Oa & _ & _ & m & _ & _ & El)|(_ & Om & old & _ & _ & _ & _ & El)].
  - apply own4_except with (P := fun k => k = md \/ k = a).
    + intros k [->| ->].
      * right; left. split; [assumption|]. split; [unfold no_data; apply N.eqb_eq; exact De|]. right; right; right; exists w; exact Hmd.
      * destruct (pk_dec a md) as [E|E].
        -- rewrite E. right; left. split; [assumption|]. split; [unfold no_data; apply N.eqb_eq; exact De|]. right; right; right; exists w; exact Hmd.
        -- right; right. rewrite El. cbv zeta. unfold same_data_and_owner. rewrite upd_other by congruence. rewrite upd_same. split; reflexivity.
    + intros k Hk. rewrite El. cbv zeta. rewrite !upd_other; auto; intro; subst k; tauto.
    + intros k. destruct (pk_dec k md), (pk_dec k a); tauto.
  - apply own4_except with (P := fun k => k = md).
    + intros k ->. left. rewrite Om. unfold involved_program; tauto.
    + intros k Hk. rewrite El, upd_other; auto.
    + intros k. destruct (pk_dec k md); tauto.
Qed.
Lemma own4_set_pointer e h c v l l' : c_prog c = tw_id -> process_set_canonical_pointer e c v l = Ok l' -> own4 e h l l'.
Proof.
  intros Hc H. destruct (map i_key (c_infos c)) as [|a [|p [|u [|x rest]]]] eqn:Ek;
    try (unfold process_set_canonical_pointer in H; destruct (c_infos c) as [|? [|? [|? [|? ?]]]]; discriminate).
  destruct (process_set_pointer_inv _ _ _ _ _ _ _ _ _ _ Ek Hc H) as (_ & _ & Hp & _ & _ & X & _ & Hr).
  apply own4_except with (P := fun k => k = p).
  - intros k ->. destruct X as [(De & Om & _)|(_ & Om)].
    + right; left. split; [assumption|]. split; [unfold no_data; apply N.eqb_eq; exact De|]. right; right; left; exists u; exact Hp.
    + left. rewrite Om. unfold involved_program; tauto.
  - exact Hr.
  - intros k. destruct (pk_dec k p); tauto.
Qed.
Definition moves_tokens (input : list N) : Prop := exists amount, unpack input = Ok (Wrap amount) \/ unpack input = Ok (Unwrap amount).
Lemma own4_process e accounts input l l' : runs e accounts input l l' -> own4 e (moves_tokens input /\ hook_runs l) l l'.
Proof.
  unfold runs, process_instruction; intro H. apply bind_ok in H. destruct H as (i & Ei & H).
  destruct i; cbn [process_instr map_instr] in H;
    [eapply own4_create|eapply own4_wrap|eapply own4_unwrap|eapply own4_close|eapply own4_sync_t22|eapply own4_sync_spl|eapply own4_set_pointer];
    try exact H; try reflexivity; intro X; (split; [|exact X]); eexists; [left|right]; exact Ei.
Qed.
