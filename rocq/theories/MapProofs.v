(** * MapProofs.v — association lists of additional metadata fields. *)
From Verif Require Import Base Codec State Pda TokenProg Cpi Meta Processor Tac.

Notation keys := (map (@fst string string)).
Definition kvs : Type := list (string * string).

(** The value a list of fields gives to a key: the last occurrence wins. *)
Fixpoint last_value (k : string) (l : kvs) : option string :=
  match l with
  | [] => None
  | (k', v) :: r => match last_value k r with Some x => Some x | None => if String.eqb k' k then Some v else None end
  end.

Lemma hm_get_None k m : hm_get k m = None <-> ~ In k (keys m).
Proof.
  induction m as [|[k' v] m IH]; cbn [hm_get map fst In]; [tauto|].
  destruct (String.eqb_spec k' k) as [->|Hne].
  - split; [discriminate|]. intro H. exfalso. auto.
  - rewrite IH. tauto.
Qed.
Lemma hm_get_In k v m : NoDup (keys m) -> hm_get k m = Some v <-> In (k, v) m.
Proof.
  induction m as [|[k' v'] m IH]; intro Hn; cbn [hm_get In]; [split; [discriminate|tauto]|].
  inversion Hn as [|? ? Hi Hn']; subst. destruct (String.eqb_spec k' k) as [->|Hne].
  - split.
    + intro H; inversion H; auto.
    + intros [H|H]; [inversion H; auto|]. exfalso. apply Hi. change k with (fst (k, v)). now apply in_map.
  - rewrite (IH Hn'). split; [auto|]. intros [H|H]; [inversion H; congruence|exact H].
Qed.
Lemma last_value_None k l : last_value k l = None <-> ~ In k (keys l).
Proof.
  induction l as [|[k' v] l IH]; cbn [last_value map fst In]; [tauto|].
  destruct (last_value k l) eqn:E.
  - split; [discriminate|]. intro H. exfalso. assert (X : ~ In k (keys l)) by tauto. apply IH in X. discriminate.
  - apply proj1 in IH. specialize (IH eq_refl). destruct (String.eqb_spec k' k) as [->|Hne].
    + split; [discriminate|]. intro H. exfalso. apply H. auto.
    + tauto.
Qed.
Lemma last_value_app k l1 l2 :
  last_value k (l1 ++ l2) = match last_value k l2 with Some v => Some v | None => last_value k l1 end.
Proof.
  induction l1 as [|[k' v] l1 IH]; cbn [app last_value]; [destruct (last_value k l2); reflexivity|].
  rewrite IH. destruct (last_value k l2); reflexivity.
Qed.
Lemma last_value_NoDup k l : NoDup (keys l) -> last_value k l = hm_get k l.
Proof.
  induction l as [|[k' v] l IH]; intro Hn; cbn [last_value hm_get]; [reflexivity|].
  inversion Hn as [|? ? Hi Hn']; subst. rewrite (IH Hn').
  destruct (String.eqb_spec k' k) as [->|Hne]; [|destruct (hm_get k l); reflexivity].
  destruct (hm_get k l) eqn:E; [|reflexivity]. exfalso. apply Hi.
  apply (hm_get_In _ _ _ Hn') in E. change k with (fst (k, s)). now apply in_map.
Qed.
Lemma last_value_split k v l :
  last_value k l = Some v <-> exists pre post, l = pre ++ (k, v) :: post /\ ~ In k (keys post).
Proof.
  split.
  - induction l as [|[k' v'] l IH]; cbn [last_value]; [discriminate|].
    destruct (last_value k l) eqn:E; intro H.
    + inversion H; subst. destruct (IH eq_refl) as (pre & post & -> & Hn). exists ((k', v') :: pre), post. auto.
    + destruct (String.eqb_spec k' k) as [->|]; inversion H; subst. exists [], l. split; [reflexivity|]. now apply last_value_None.
  - intros (pre & post & -> & Hn). rewrite last_value_app. cbn [last_value].
    apply last_value_None in Hn. rewrite Hn, String.eqb_refl. reflexivity.
Qed.

Lemma assoc_set_get k v k' m :
  hm_get k' (assoc_set k v m) = if String.eqb k k' then Some v else hm_get k' m.
Proof.
  induction m as [|[k0 v0] m IH]; cbn [assoc_set hm_get]; [reflexivity|].
  destruct (String.eqb_spec k0 k) as [->|Hne]; cbn [hm_get].
  - destruct (String.eqb k k'); reflexivity.
  - rewrite IH. destruct (String.eqb_spec k0 k') as [->|]; [|reflexivity].
    destruct (String.eqb_spec k k') as [->|]; [congruence|reflexivity].
Qed.
Lemma assoc_set_keys k v m x : In x (keys (assoc_set k v m)) <-> x = k \/ In x (keys m).
Proof.
  induction m as [|[k0 v0] m IH]; cbn [assoc_set map fst In]; [intuition|].
  destruct (String.eqb_spec k0 k) as [->|Hne]; cbn [map fst In]; [intuition|]. rewrite IH. tauto.
Qed.
Lemma assoc_set_keys_same k v m : In k (keys m) -> keys (assoc_set k v m) = keys m.
Proof.
  induction m as [|[k0 v0] m IH]; cbn [assoc_set map fst In]; [tauto|].
  destruct (String.eqb_spec k0 k) as [->|Hne]; intro H; cbn [map fst]; [reflexivity|].
  rewrite IH; [reflexivity|]. tauto.
Qed.
Lemma assoc_set_NoDup k v m : NoDup (keys m) -> NoDup (keys (assoc_set k v m)).
Proof.
  induction m as [|[k0 v0] m IH]; cbn [assoc_set map fst]; intro Hn; [repeat constructor; intros []|].
  inversion Hn as [|? ? Hi Hn']; subst.
  destruct (String.eqb_spec k0 k) as [->|Hne]; cbn [map fst]; constructor; auto.
  rewrite assoc_set_keys. intros [X|X]; auto.
Qed.
Lemma assoc_set_id k v m : hm_get k m = Some v -> assoc_set k v m = m.
Proof.
  induction m as [|[k0 v0] m IH]; cbn [assoc_set hm_get]; [discriminate|].
  destruct (String.eqb_spec k0 k) as [->|Hne]; intro H; [inversion H; reflexivity|]. now rewrite IH.
Qed.
Lemma assoc_set_new k v m : ~ In k (keys m) -> assoc_set k v m = m ++ [(k, v)].
Proof.
  induction m as [|[k0 v0] m IH]; cbn [assoc_set map fst In app]; intro H; [reflexivity|].
  destruct (String.eqb_spec k0 k) as [->|Hne]; [exfalso; auto|]. now rewrite IH by tauto.
Qed.

Lemma hm_collect_NoDup_gen l m : NoDup (keys (m ++ l)) -> fold_left (fun m kv => hm_insert kv m) l m = m ++ l.
Proof.
  revert m; induction l as [|[k v] l IH]; intros m Hn; cbn [fold_left]; [now rewrite app_nil_r|].
  rewrite map_app in Hn. cbn [map fst] in Hn.
  assert (Hk : ~ In k (keys m)).
  { apply NoDup_remove_2 in Hn. intro X. apply Hn. apply in_or_app; auto. }
  unfold hm_insert at 2. cbn [fst snd]. rewrite assoc_set_new by exact Hk. rewrite IH.
  - rewrite <- app_assoc. reflexivity.
  - rewrite <- app_assoc. rewrite map_app. exact Hn.
Qed.
Lemma hm_collect_id l : NoDup (keys l) -> hm_collect l = l.
Proof. intro H. unfold hm_collect. now rewrite hm_collect_NoDup_gen. Qed.

Lemma hm_remove_get k k' m : hm_get k' (hm_remove k m) = if String.eqb k k' then None else hm_get k' m.
Proof.
  unfold hm_remove. induction m as [|[k0 v0] m IH]; cbn [filter hm_get fst]; [destruct (String.eqb k k'); reflexivity|].
  destruct (String.eqb_spec k0 k) as [->|Hne]; cbn [negb].
  - rewrite IH. destruct (String.eqb_spec k k'); reflexivity.
  - cbn [hm_get]. rewrite IH. destruct (String.eqb_spec k0 k') as [->|]; [|reflexivity].
    destruct (String.eqb_spec k k') as [->|]; [congruence|reflexivity].
Qed.
Lemma hm_remove_NoDup k m : NoDup (keys m) -> NoDup (keys (hm_remove k m)).
Proof.
  unfold hm_remove. induction m as [|[k0 v0] m IH]; cbn [filter map fst]; intro H; [exact H|].
  inversion H as [|? ? Hi Hn]; subst. destruct (negb (String.eqb k0 k)); cbn [map fst]; auto. constructor; auto.
  intro X. apply Hi. apply in_map_iff in X. destruct X as ([a b] & Ea & X). apply filter_In in X. cbn in Ea; subst.
  change k0 with (fst (k0, b)). apply in_map. tauto.
Qed.
Lemma insert_by_rank_In r k x l : In x (insert_by_rank r k l) <-> x = k \/ In x l.
Proof.
  induction l as [|y l IH]; cbn [insert_by_rank In]; [intuition|].
  destruct (r k <=? r y); cbn [In]; [intuition|]. rewrite IH. tauto.
Qed.
Lemma hm_keys_In r m x : In x (hm_keys r m) <-> In x (keys m).
Proof.
  unfold hm_keys. induction (keys m) as [|y l IH]; cbn [fold_right In]; [tauto|].
  rewrite insert_by_rank_In, IH. intuition.
Qed.
Lemma hm_keys_nil r m : (forall k, hm_get k m = None) -> hm_keys r m = [].
Proof.
  intro H. destruct (hm_keys r m) as [|x l] eqn:E; [reflexivity|]. exfalso.
  assert (X : In x (keys m)) by (apply (hm_keys_In r); rewrite E; simpl; auto).
  apply (proj1 (hm_get_None x m) (H x)). exact X.
Qed.
Lemma filter_get k m : forall x, hm_get x (filter (fun kv : string * string => negb (String.eqb (fst kv) k)) m) = if String.eqb k x then None else hm_get x m.
Proof. intro x. apply hm_remove_get. Qed.
Lemma insert_by_rank_NoDup r k l : ~ In k l -> NoDup l -> NoDup (insert_by_rank r k l).
Proof.
  induction l as [|y l IH]; cbn [insert_by_rank]; intros Hi Hn; [repeat constructor; auto|].
  destruct (r k <=? r y); [constructor; auto|]. inversion Hn; subst. constructor.
  - rewrite insert_by_rank_In. intros [X|X]; subst; [apply Hi; simpl; auto|contradiction].
  - apply IH; [|assumption]. intro X; apply Hi; simpl; auto.
Qed.
Lemma hm_keys_NoDup r m : NoDup (keys m) -> NoDup (hm_keys r m).
Proof.
  unfold hm_keys. induction (keys m) as [|y l IH]; intro H; cbn [fold_right]; [constructor|].
  inversion H; subst. apply insert_by_rank_NoDup; auto. intro X.
  assert (Y : forall z, In z (fold_right (insert_by_rank r) [] l) -> In z l).
  { clear. induction l as [|y l IH]; cbn [fold_right In]; [tauto|]. intro z. rewrite insert_by_rank_In. intros [->|Z]; auto. }
  auto.
Qed.
