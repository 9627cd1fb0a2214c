(** * C69: how much of the storage a call depends on. *)
From Verif Require Import Base Dec Types State TickMath Sumtree Tick Order Auth Contract World Spec SpecProps SpecTree SpecCost SpecReads
  Exec TreeDefs SumtreeProofs SumtreeInsert SumtreeRoot SumtreeFail Ghost Inv StepCancel SwapPlan PlanCurve StepSwap Reach Trans Books Solvency PropBase PropOrders PropSwap PropTree PropCost Tests.

(** ** Running the same program on two storages *)
Definition agree (cells : list cell) : storage -> storage -> Prop := agree_on (fun c => c ∈ cells).
Lemma same_refl s c : same_cell s s c.
Proof. destruct c; reflexivity. Qed.
Lemma same_sym s s' c : same_cell s s' c -> same_cell s' s c.
Proof. destruct c; cbn; congruence. Qed.
Lemma effect_none s s' : same_effect s s' s s'.
Proof. intros c. right. split; apply same_refl. Qed.
Lemma effect_agree cells s s' t t' : agree cells s s' -> same_effect s s' t t' -> agree cells t t'.
Proof.
  intros Ha He c Hc. destruct (He c) as [H|[H1 H2]]; [exact H|]. specialize (Ha c Hc).
  eapply same_trans; [apply same_sym, H1|]. eapply same_trans; [exact Ha|exact H2].
Qed.
Lemma effect_trans s s' t t' u u' : same_effect s s' t t' -> same_effect t t' u u' -> same_effect s s' u u'.
Proof.
  intros H1 H2 c. destruct (H2 c) as [A|[A B]]; [left; exact A|]. destruct (H1 c) as [C|[C D]].
  - left. eapply same_trans; [apply same_sym, A|]. eapply same_trans; [exact C|exact B].
  - right. split; eapply same_trans; eauto.
Qed.
Definition sim {A} (cells : list cell) (s : storage) (m m' : M storage A) : Prop :=
  forall s', agree cells s s' -> snd (m' s') = snd (m s) /\ same_effect s s' (fst (m s)) (fst (m' s')).
Lemma sim_bind {A B} c1 c2 s (m m' : M storage A) (k k' : A -> M storage B) :
  sim c1 s m m' -> (forall x s1, m s = (s1, Ok x) -> sim c2 s1 (k x) (k' x)) -> sim (c1 ++ c2) s (mbindM m k) (mbindM m' k').
Proof.
  intros H K s' Ha. destruct (H s') as [E F].
  { intros c Hc. apply Ha, elem_of_app. left. exact Hc. }
  unfold mbindM. destruct (m s) as [s1 r] eqn:Em, (m' s') as [s1' r'] eqn:Em'. cbn [fst snd] in E, F. subst r'.
  destruct r as [x|e| |]; cbn [fst snd]; [|split; [reflexivity|exact F]..].
  destruct (K x s1 eq_refl s1') as [E2 F2].
  { eapply effect_agree; [|exact F]. intros c Hc. apply Ha, elem_of_app. right. exact Hc. }
  split; [exact E2|]. eapply effect_trans; eauto.
Qed.
(** [m] needs [n] entries at [s]; [m'] is the program run on the other storage, which may have another recursion bound, from [h] on. *)
Definition needsf {A} (n : Z) (h : nat) (s : storage) (m : M storage A) (m' : nat -> M storage A) : Prop :=
  exists cells, Z.of_nat (length cells) <= n /\ forall f, (h <= f)%nat -> sim cells s m (m' f).
Definition needs {A} (n : Z) (s : storage) (m : M storage A) : Prop := exists cells, Z.of_nat (length cells) <= n /\ sim cells s m m.
Lemma needs_f {A} n h s (m : M storage A) : needs n s m -> needsf n h s m (fun _ => m).
Proof. intros (l & L & H). exists l. auto. Qed.
Lemma nf_bind {A B} n a b h s (m : M storage A) m' (k : A -> M storage B) k' :
  needsf a h s m m' -> (forall x s1, m s = (s1, Ok x) -> needsf b h s1 (k x) (k' x)) -> a + b <= n -> 0 <= b ->
  needsf n h s (mbindM m k) (fun f => mbindM (m' f) (fun x => k' x f)).
Proof.
  intros (l1 & L1 & H) K Hn Hb. destruct (m s) as [s1 r] eqn:E. destruct r as [x|er| |].
  - destruct (K x s1 eq_refl) as (l2 & L2 & H2). exists (l1 ++ l2). rewrite app_length. split; [lia|].
    intros f Hf. apply sim_bind; [apply H, Hf|]. intros y s2 E2. rewrite E in E2. injection E2 as <- <-. apply H2, Hf.
  - exists l1. split; [lia|]. intros f Hf. rewrite <- (app_nil_r l1). apply sim_bind; [apply H, Hf|]. rewrite E. intros; discriminate.
  - exists l1. split; [lia|]. intros f Hf. rewrite <- (app_nil_r l1). apply sim_bind; [apply H, Hf|]. rewrite E. intros; discriminate.
  - exists l1. split; [lia|]. intros f Hf. rewrite <- (app_nil_r l1). apply sim_bind; [apply H, Hf|]. rewrite E. intros; discriminate.
Qed.
Lemma n_bind {A B} n a s (m : M storage A) (k : A -> M storage B) :
  needs a s m -> (forall x s1, m s = (s1, Ok x) -> needs (n - a) s1 (k x)) -> 0 <= n - a -> needs n s (mbindM m k).
Proof.
  intros H K Hn. destruct (nf_bind n a (n - a) 0 s m (fun _ => m) k (fun x _ => k x) (needs_f _ _ _ _ H)) as (l & L & S); [|lia|lia|].
  - intros x s1 E. apply needs_f, K, E.
  - exists l. split; [exact L|]. exact (S 0%nat (Nat.le_refl 0)).
Qed.
Lemma n_weak {A} a b s (m : M storage A) : needs a s m -> a <= b -> needs b s m.
Proof. intros (l & L & H) Hle. exists l. split; [lia|exact H]. Qed.

(** ** Programs with a fixed number of reads *)
Definition reads {A} (n : Z) (m : M storage A) : Prop := forall s, needs n s m.
Lemma r_weak {A} a b (m : M storage A) : reads a m -> a <= b -> reads b m.
Proof. intros H Hle s. eapply n_weak; eauto. Qed.
Lemma r_bind {A B} n a (m : M storage A) (k : A -> M storage B) : reads a m -> (forall x, reads (n - a) (k x)) -> 0 <= n - a -> reads n (mbindM m k).
Proof. intros H K Hn s. eapply n_bind; [apply H|intros; apply K|exact Hn]. Qed.
Lemma r_assoc {A B C} n (m : M storage A) (k : A -> M storage B) (k' : B -> M storage C) :
  reads n (mbindM m (fun a => mbindM (k a) k')) -> reads n (mbindM (mbindM m k) k').
Proof.
  intros H s. destruct (H s) as (l & L & S). exists l. split; [exact L|]. intros s' Ha. rewrite !bind_assoc. exact (S s' Ha).
Qed.
Lemma r_pure {A} (m : M storage A) : (exists r, forall s, m s = (s, r)) -> reads 0 m.
Proof. intros [r H] s. exists []. split; [reflexivity|]. intros s' _. rewrite !H. split; [reflexivity|apply effect_none]. Qed.
Lemma r_ret {A} (a : A) : reads 0 (mret a). Proof. apply r_pure. eexists. reflexivity. Qed.
Lemma r_lift {A} (r : res A) : reads 0 (mlift r). Proof. apply r_pure. eexists. reflexivity. Qed.
Lemma r_ensure b e : reads 0 (mensure b e). Proof. apply r_lift. Qed.
Lemma r_mod (f : storage -> storage) : (forall s s', same_effect s s' (f s) (f s')) -> reads 0 (mmod f).
Proof. intros H s. exists []. split; [reflexivity|]. intros s' _. split; [reflexivity|apply H]. Qed.
(** A function of the storage that looks at [n] entries. *)
Definition rd {A} (n : Z) (f : storage -> A) : Prop :=
  forall s, exists cells, Z.of_nat (length cells) <= n /\ forall s', agree cells s s' -> f s' = f s.
Lemma r_read {A} n (f : storage -> A) : rd n f -> reads n (mread f).
Proof. intros H s. destruct (H s) as (l & L & F). exists l. split; [exact L|]. intros s' Ha. cbn. rewrite (F s' Ha). split; [reflexivity|apply effect_none]. Qed.
Lemma r_readr {A} n (f : storage -> res A) : rd n f -> reads n (mreadr f).
Proof. intros H s. destruct (H s) as (l & L & F). exists l. split; [exact L|]. intros s' Ha. unfold mreadr. cbn. rewrite (F s' Ha). split; [reflexivity|apply effect_none]. Qed.
Lemma rd_const {A} (x : A) : rd 0 (fun _ => x).
Proof. intros s. exists []. split; [reflexivity|]. reflexivity. Qed.
Lemma rd_cell {A} c (f : storage -> A) : (forall s s', same_cell s s' c -> f s' = f s) -> rd 1 f.
Proof. intros H s. exists [c]. split; [reflexivity|]. intros s' Ha. apply H, Ha. constructor. Qed.
Lemma rd_app {A B} n a (g : storage -> A) (f : A -> storage -> B) : rd a g -> (forall x, rd (n - a) (f x)) -> rd n (fun s => f (g s) s).
Proof.
  intros Hg Hf s. destruct (Hg s) as (l1 & L1 & F1). destruct (Hf (g s) s) as (l2 & L2 & F2). exists (l1 ++ l2). rewrite app_length. split; [lia|].
  intros s' Ha. rewrite F1; [apply F2|]; intros c Hc; apply Ha, elem_of_app; auto.
Qed.
Lemma rd_child tick k : rd 1 (fun s => load_child s tick k).
Proof. destruct k as [i|]; [|intros s; exists []; split; [cbn; lia|reflexivity]]. apply (rd_cell (CNode tick i)). intros s s' H. exact H. Qed.
Lemma rd_left n : rd 1 (fun s => get_left s n). Proof. apply rd_child. Qed.
Lemma rd_right n : rd 1 (fun s => get_right s n). Proof. apply rd_child. Qed.
Lemma rd_parent n : rd 1 (fun s => get_parent s n). Proof. apply rd_child. Qed.
Lemma rd_balance n : rd 2 (fun s => get_balance_factor s n).
Proof.
  intros s. destruct (rd_left n s) as (l1 & L1 & F1). destruct (rd_right n s) as (l2 & L2 & F2). exists (l1 ++ l2). rewrite app_length. split; [lia|].
  intros s' Ha. unfold get_balance_factor. rewrite F1, F2; [reflexivity| |]; intros c Hc; apply Ha, elem_of_app; auto.
Qed.
Lemma rd_balance_opt o : rd 2 (fun s => unwrap_or (option_map (get_balance_factor s) o) 0).
Proof. destruct o as [n|]; [apply (rd_balance n)|]. intros s. exists []. split; [cbn; lia|reflexivity]. Qed.
Lemma rd_root tick d : rd 2 (fun s => get_root_node s tick d).
Proof.
  intros s. destruct (s_tree s !! (tick, d)) as [k|] eqn:E.
  - exists [CTree tick d; CNode tick k]. split; [cbn; lia|]. intros s' Ha. unfold get_root_node.
    rewrite (Ha (CTree tick d)) by constructor. rewrite E. cbn. pose proof (Ha (CNode tick k) ltac:(constructor; constructor)) as H. cbn in H.
    rewrite H. reflexivity.
  - exists [CTree tick d]. split; [cbn; lia|]. intros s' Ha. unfold get_root_node.
    rewrite (Ha (CTree tick d)) by constructor. rewrite E. reflexivity.
Qed.
Ltac cellof c := apply (rd_cell c); let H := fresh in intros ? ? H; cbn in H; unfold load_orderbook, get_maker_fee, get_directional_liquidity; rewrite ?H; reflexivity.
Ltac rdone := first
  [ apply rd_left | apply rd_right | apply rd_parent | apply rd_balance | apply rd_balance_opt | apply rd_root
  | solve [cellof COrderId] | solve [cellof COrderbook] | solve [cellof CActive] | solve [cellof CFee] | solve [cellof CRecipient]
  | solve [cellof CAdmin] | solve [cellof CAdminOffer] | solve [cellof CModerator] | solve [cellof CModeratorOffer]
  | match goal with
    | |- rd _ ?f => match f with
      | context [s_ticks _ !! ?t] => solve [cellof (CTick t)]
      | context [s_dirliq _ !! ?d] => solve [cellof (CLiquidity d)]
      | context [get_directional_liquidity _ ?d] => solve [cellof (CLiquidity d)]
      | context [s_orders _ !! (?t, ?id)] => solve [cellof (COrder t id)]
      | context [s_nodes _ !! (?t, ?id)] => solve [cellof (CNode t id)]
      | context [s_nodectr _ !! ?t] => solve [cellof (CNodeId t)]
      end
    end ].
Ltac effect := apply r_mod; intros s s' c; destruct c; cbn;
  try (right; split; reflexivity); try (left; reflexivity).
Ltac atkey := match goal with |- context [?k <> ?k'] => idtac end.
Lemma ins_same {K V} `{Countable K} (m m' : gmap K V) k0 k v : <[k0 := v]> m' !! k = <[k0 := v]> m !! k \/ (<[k0 := v]> m !! k = m !! k /\ <[k0 := v]> m' !! k = m' !! k).
Proof. destruct (decide (k0 = k)) as [->|Hne]; [left; rewrite !lookup_insert; reflexivity|right; rewrite !lookup_insert_ne by exact Hne; auto]. Qed.
Lemma del_same {K V} `{Countable K} (m m' : gmap K V) k0 k : delete k0 m' !! k = delete k0 m !! k \/ (delete k0 m !! k = m !! k /\ delete k0 m' !! k = m' !! k).
Proof. destruct (decide (k0 = k)) as [->|Hne]; [left; rewrite !lookup_delete; reflexivity|right; rewrite !lookup_delete_ne by exact Hne; auto]. Qed.
Ltac effect' := effect; try apply ins_same; try apply del_same.
Lemma r_node n : reads 0 (node_save n). Proof. effect'. Qed.
Lemma r_tree t d (k : Z) : reads 0 (mmod (fun s => set_tree (<[(t, d) := k]> (s_tree s)) s)). Proof. effect'. Qed.
Lemma r_ctr t (k : Z) : reads 0 (mmod (fun s => set_nodectr (<[t := k]> (s_nodectr s)) s)). Proof. effect'. Qed.
Lemma r_tick t ts : reads 0 (save_tick t ts). Proof. effect'. Qed.
Lemma r_liq d (v : Z) : reads 0 (mmod (fun s => set_dirliq (<[d := v]> (s_dirliq s)) s)). Proof. effect'. Qed.
Lemma r_order k o : reads 0 (save_order k o). Proof. effect'. Qed.
Lemma r_remove k : reads 0 (remove_order k). Proof. effect'. Qed.
Lemma r_id x : reads 0 (mmod (set_order_id x)). Proof. effect'. Qed.
Lemma r_book x : reads 0 (mmod (set_orderbook x)). Proof. effect'. Qed.
Lemma r_active x : reads 0 (mmod (set_active_item x)). Proof. effect'. Qed.
Lemma r_fee x : reads 0 (mmod (set_fee x)). Proof. effect'. Qed.
Lemma r_recipient x : reads 0 (mmod (set_recipient x)). Proof. effect'. Qed.
Lemma r_admin x : reads 0 (mmod (set_admin x)). Proof. effect'. Qed.
Lemma r_admin_offer x : reads 0 (mmod (set_admin_offer x)). Proof. effect'. Qed.
Lemma r_moderator x : reads 0 (mmod (set_moderator x)). Proof. effect'. Qed.
Lemma r_moderator_offer x : reads 0 (mmod (set_moderator_offer x)). Proof. effect'. Qed.
Create HintDb rr discriminated.
#[export] Hint Resolve r_ret r_lift r_ensure r_node r_tree r_ctr r_tick r_liq r_order r_remove r_id r_book
  r_active r_fee r_recipient r_admin r_admin_offer r_moderator r_moderator_offer : rr.
#[export] Hint Extern 1 (reads _ (mread _)) => (apply r_read; rdone) : rr.
#[export] Hint Extern 1 (reads _ (mreadr _)) => (apply r_readr; rdone) : rr.
Ltac rr1 :=
  match goal with
  | |- reads _ (mbindM (mbindM _ _) _) => apply r_assoc
  | |- reads _ (mbindM (match ?x with _ => _ end) _) => destruct x
  | |- reads _ (mbindM _ _) => eapply r_bind; [solve [eauto with rr nocore]|intros|lia]; cbv zeta
  | |- reads _ (match ?x with _ => _ end) => destruct x
  | |- reads _ _ => eapply r_weak; [solve [eauto with rr nocore]|lia]
  end.
Ltac rr := repeat rr1.
Lemma r_generate t : reads 1 (generate_node_id t). Proof. unfold generate_node_id. rr. Qed.
#[export] Hint Resolve r_generate : rr.
Lemma r_init t d : reads 3 (get_or_init_root_node t d).
Proof. unfold get_or_init_root_node. rr. Qed.
#[export] Hint Resolve r_init : rr.
Lemma r_srv n : reads 2 (sync_range_and_value n). Proof. unfold sync_range_and_value. rr. Qed.
#[export] Hint Resolve r_srv : rr.
Lemma r_rotr n : reads 7 (rotate_right n). Proof. unfold rotate_right. rr. Qed.
Lemma r_rotl n : reads 7 (rotate_left n). Proof. unfold rotate_left. rr. Qed.
#[export] Hint Resolve r_rotr r_rotl : rr.
Lemma r_sync n : reads 1 (node_sync n). Proof. unfold node_sync. rr. Qed.
#[export] Hint Resolve r_sync : rr.
Lemma r_rebalance n : reads 24 (rebalance n). Proof. unfold rebalance. rr. Qed.
Lemma r_split a b : reads 1 (node_split a b). Proof. unfold node_split. rr. Qed.
#[export] Hint Resolve r_rebalance r_split : rr.
Lemma r_order_id : reads 1 new_order_id. Proof. unfold new_order_id. rr. Qed.
Lemma r_add d x : reads 1 (add_directional_liquidity d x). Proof. unfold add_directional_liquidity. rr. Qed.
Lemma r_sub d x : reads 1 (subtract_directional_liquidity d x). Proof. unfold subtract_directional_liquidity. rr. Qed.
#[export] Hint Resolve r_order_id r_add r_sub : rr.
Lemma r_place e i t d q b : reads 4 (place_limit e i t d q b). Proof. unfold place_limit. rr. Qed.

Lemma r_active_call : reads 1 ensure_is_active.
Proof. unfold ensure_is_active. rr. Qed.
#[export] Hint Resolve r_active_call : rr.
Lemma r_auth e i m : reads 2 (auth_dispatch e i m).
Proof.
  destruct m; cbn [auth_dispatch];
    unfold dispatch_transfer_admin, dispatch_cancel_admin_transfer, dispatch_claim_admin, dispatch_reject_admin_transfer,
      dispatch_renounce_adminship, dispatch_offer_moderator, dispatch_claim_moderator, dispatch_reject_moderator_offer, dispatch_set_active,
      dispatch_set_maker_fee, dispatch_set_maker_fee_recipient, ensure_is_admin, ensure_is_admin_or_moderator, offer_admin, remove_admin_transfer,
      update_admin, remove_admin, offer_moderator, remove_moderator_offer, update_moderator, set_active, set_maker_fee, addr_validate.
  all: rr.
Qed.

(** ** The walk down a tree of cancellations *)
Definition walk_body (node : tnode) (left_child right_child : option tnode) (current_sum target_etas prev_sum : Z)
  (rec : tnode -> Z -> Z -> res Z) : res Z :=
    if target_etas <? get_min_range node then Ok 0
    else
      let? mx := get_max_range node in
      if mx <=? target_etas then Ok current_sum
      else if negb (is_internal node) then Ok current_sum
      else
        let? resync :=
          match left_child, right_child with
          | Some l, Some r =>
              let? sum_at_node := checked_sub current_sum (get_value node) in
              let diff_at_node := saturating_sub prev_sum sum_at_node in
              let unrealized_from_left := saturating_sub (get_value l) diff_at_node in
              let? new_etas := checked_add256 target_etas unrealized_from_left in
              if get_min_range r <=? new_etas then Ok (Some (r, new_etas)) else Ok None
          | _, _ => Ok None
          end in
        match resync with
        | Some (r, new_etas) => rec r current_sum new_etas
        | None =>
          let? walk_left :=
            match left_child with
            | Some l =>
                if target_etas <? get_min_range l then Ok (Some (Ok 0))
                else
                  let? lmx := get_max_range l in
                  if target_etas <? lmx then
                    let right_sum := unwrap_or (option_map get_value right_child) 0 in
                    let? cs := checked_sub current_sum right_sum in
                    Ok (Some (rec l cs target_etas))
                  else Ok None
            | None => Ok None
            end in
          match walk_left with
          | Some r => r
          | None =>
            match right_child with
            | None => Ok current_sum
            | Some r =>
                if target_etas <? get_min_range r then checked_sub current_sum (get_value r)
                else
                  let? rmx := get_max_range r in
                  if target_etas <=? rmx then rec r current_sum target_etas
                  else Ok current_sum
            end
          end
        end.
Lemma walk_step fuel s node cur tgt prev :
  prefix_sum_walk (S fuel) s node cur tgt prev =
  walk_body node (get_left s node) (get_right s node) cur tgt prev (fun n c t => prefix_sum_walk fuel s n c t prev).
Proof. reflexivity. Qed.
(** The walk goes down to at most one child. *)
Lemma body_once node lo ro cur tgt prev :
  (exists v, forall rec, walk_body node lo ro cur tgt prev rec = v) \/
  (exists n c t, (lo = Some n \/ ro = Some n) /\ is_internal node = true /\ forall rec, walk_body node lo ro cur tgt prev rec = rec n c t).
Proof.
  unfold walk_body. destruct (tgt <? get_min_range node); [left; eexists; reflexivity|].
  destruct (get_max_range node) as [mx| | |]; cbn [rbind]; try (left; eexists; reflexivity).
  destruct (mx <=? tgt); [left; eexists; reflexivity|]. destruct (is_internal node); cbn [negb]; [|left; eexists; reflexivity].
  match goal with |- context [rbind ?x _] => destruct x as [[[r e]|]|er| |] eqn:Er; cbn [rbind] end; try (left; eexists; reflexivity).
  - right. exists r, cur, e. split; [|split; [reflexivity|reflexivity]]. right. destruct lo as [l|], ro as [r'|]; try discriminate.
    repeat match type of Er with context [rbind ?x _] => destruct x; cbn [rbind] in Er; try discriminate end.
    destruct (_ <=? _); [|discriminate]. injection Er as -> _. reflexivity.
  - destruct lo as [l|].
    + destruct (tgt <? get_min_range l); cbn [rbind]; [left; eexists; reflexivity|].
      destruct (get_max_range l) as [lm| | |]; cbn [rbind]; try (left; eexists; reflexivity).
      destruct (tgt <? lm); cbn [rbind].
      * destruct (checked_sub cur (unwrap_or (option_map get_value ro) 0)) as [cs| | |]; cbn [rbind]; try (left; eexists; reflexivity). right. exists l, cs, tgt. split; [auto|split; reflexivity].
      * destruct ro as [r|]; [|left; eexists; reflexivity].
        destruct (tgt <? get_min_range r); [left; eexists; reflexivity|].
        destruct (get_max_range r) as [rm| | |]; cbn [rbind]; try (left; eexists; reflexivity).
        destruct (tgt <=? rm); [|left; eexists; reflexivity]. right. exists r, cur, tgt. split; [auto|split; reflexivity].
    + cbn [rbind]. destruct ro as [r|]; [|left; eexists; reflexivity].
      destruct (tgt <? get_min_range r); [left; eexists; reflexivity|].
      destruct (get_max_range r) as [rm| | |]; cbn [rbind]; try (left; eexists; reflexivity).
      destruct (tgt <=? rm); [|left; eexists; reflexivity]. right. exists r, cur, tgt. split; [auto|split; reflexivity].
Qed.
Definition path_reads (n : Z) (h : Z) (s : storage) (node : tnode) : Prop :=
  forall cur tgt prev fuel, h <= Z.of_nat fuel -> exists cells, Z.of_nat (length cells) <= n /\
    forall s' fuel', agree cells s s' -> h <= Z.of_nat fuel' -> prefix_sum_walk fuel' s' node cur tgt prev = prefix_sum_walk fuel s node cur tgt prev.
Lemma tree_path tick d s : forall t p, repr tick d (s_nodes s) p t -> path_reads (2 * theight t) (theight t) s (node_of tick d p t).
Proof.
  induction t as [k e v|k l IHl r IHr]; intros p Hrep cur tgt prev fuel Hf; cbn [theight] in *.
  - destruct fuel as [|fuel]; [lia|]. exists []. split; [cbn; lia|]. intros s' fuel' _ Hf'. destruct fuel' as [|fuel']; [lia|].
    rewrite !walk_step. unfold walk_body. cbn [node_of get_min_range n_type]. destruct (tgt <? e); [reflexivity|].
    destruct (get_max_range _) as [mx| | |]; reflexivity.
  - pose proof (theight_pos l) as Pl. pose proof (theight_pos r) as Pr. destruct Hrep as (Hself & Hl & Hr).
    pose proof (repr_lookup _ _ _ _ _ Hl) as Hl0. pose proof (repr_lookup _ _ _ _ _ Hr) as Hr0.
    destruct fuel as [|fuel]; [lia|]. set (c0 := [CNode tick (tkey l); CNode tick (tkey r)]).
    assert (El : forall s', agree c0 s s' -> get_left s' (node_of tick d p (TNode k l r)) = get_left s (node_of tick d p (TNode k l r))).
    { intros s' Ha. apply (Ha (CNode tick (tkey l))). constructor. }
    assert (Er : forall s', agree c0 s s' -> get_right s' (node_of tick d p (TNode k l r)) = get_right s (node_of tick d p (TNode k l r))).
    { intros s' Ha. apply (Ha (CNode tick (tkey r))). constructor. constructor. }
    destruct (body_once (node_of tick d p (TNode k l r)) (get_left s (node_of tick d p (TNode k l r))) (get_right s (node_of tick d p (TNode k l r))) cur tgt prev)
      as [(v & Hv)|(n & c & t & Hn & _ & Hv)].
    + exists c0. split; [cbn; lia|]. intros s' fuel' Ha Hf'. destruct fuel' as [|fuel']; [lia|]. rewrite !walk_step, (El s' Ha), (Er s' Ha), !Hv. reflexivity.
    + assert (HI : exists cells, Z.of_nat (length cells) <= 2 * Z.max (theight l) (theight r) /\
        forall s' fuel', agree cells s s' -> Z.max (theight l) (theight r) <= Z.of_nat fuel' -> prefix_sum_walk fuel' s' n c t prev = prefix_sum_walk fuel s n c t prev).
      { destruct Hn as [Hn|Hn].
        - unfold get_left in Hn. cbn [node_of n_left n_tick load_child] in Hn. rewrite Hl0 in Hn. injection Hn as <-.
          destruct (IHl _ Hl c t prev fuel ltac:(lia)) as (cells & L & F). exists cells. split; [lia|]. intros s' fuel' Ha Hf'. apply F; [exact Ha|lia].
        - unfold get_right in Hn. cbn [node_of n_right n_tick load_child] in Hn. rewrite Hr0 in Hn. injection Hn as <-.
          destruct (IHr _ Hr c t prev fuel ltac:(lia)) as (cells & L & F). exists cells. split; [lia|]. intros s' fuel' Ha Hf'. apply F; [exact Ha|lia]. }
      destruct HI as (cells & L & F). exists (c0 ++ cells). rewrite app_length. split; [cbn [length c0]; lia|].
      intros s' fuel' Ha Hf'. destruct fuel' as [|fuel']; [lia|].
      assert (Ha0 : agree c0 s s') by (intros x Hx; apply Ha, elem_of_app; auto).
      rewrite !walk_step, (El s' Ha0), (Er s' Ha0), !Hv. apply F; [|lia]. intros x Hx. apply Ha, elem_of_app. auto.
Qed.
(** A longest branch: its nodes alone bound the number of stored nodes from below. *)
Lemma tree_branch tick d m : forall t p, repr tick d m p t -> NoDup (keys t) ->
  exists K, NoDup K /\ Z.of_nat (length K) = theight t /\ (forall k, k ∈ K -> k ∈ keys t).
Proof.
  induction t as [k e v|k l IHl r IHr]; intros p Hrep Hn; cbn [theight keys] in *.
  - exists [k]. split; [apply NoDup_singleton|]. split; [reflexivity|auto].
  - destruct Hrep as (_ & Hl & Hr). apply NoDup_cons in Hn as [Hk Hn]. apply NoDup_app in Hn as (Nl & Hd & Nr).
    destruct (IHl _ Hl Nl) as (Kl & Dl & Ll & Sl). destruct (IHr _ Hr Nr) as (Kr & Dr & Lr & Sr).
    destruct (Z.le_ge_cases (theight l) (theight r)) as [H|H].
    + exists (k :: Kr). split; [|split].
      * apply NoDup_cons. split; [|exact Dr]. intros Hin. apply Hk, elem_of_app. right. auto.
      * cbn [length]. lia.
      * intros x Hx. apply elem_of_cons in Hx as [->|Hx]; [constructor|]. constructor. apply elem_of_app. right. auto.
    + exists (k :: Kl). split; [|split].
      * apply NoDup_cons. split; [|exact Dl]. intros Hin. apply Hk, elem_of_app. left. auto.
      * cbn [length]. lia.
      * intros x Hx. apply elem_of_cons in Hx as [->|Hx]; [constructor|]. constructor. apply elem_of_app. left. auto.
Qed.
Lemma branch_fuel tick d s t p : repr tick d (s_nodes s) p t -> NoDup (keys t) ->
  exists cells, Z.of_nat (length cells) = theight t /\ forall s', agree cells s s' -> theight t <= Z.of_nat (tree_fuel s').
Proof.
  intros Hrep Hn. destruct (tree_branch _ _ _ _ _ Hrep Hn) as (K & D & L & S). exists (map (CNode tick) K). rewrite map_length. split; [exact L|].
  intros s' Ha. assert (length K <= size (s_nodes s'))%nat as Hk.
  { apply (keys_size tick); [exact D|]. intros k Hk. destruct (repr_key_lookup _ _ _ _ _ k Hrep (S k Hk)) as (n & E & _).
    pose proof (Ha (CNode tick k) ltac:(apply elem_of_list_fmap; eauto)) as E'. cbn in E'. rewrite E', E. eauto. }
  unfold tree_fuel. lia.
Qed.

(** ** The trees of cancellations of all ticks *)
Definition stores (L : Z -> dir -> list (Z * Z)) (s : storage) : Prop :=
  forall t, store_ok t (s_nodes s) (s_tree s) (unwrap_or (s_nodectr s !! t) 0) (L t).
Definition lg (l : list (Z * Z)) : Z := Z.log2 (Z.of_nat (length l)).
Lemma lg_pos l : 0 <= lg l.
Proof. apply Z.log2_nonneg. Qed.
Lemma init_ok tick d s s1 root L : store_ok tick (s_nodes s) (s_tree s) (unwrap_or (s_nodectr s !! tick) 0) L ->
  get_or_init_root_node tick d s = (s1, Ok root) ->
  exists tr c, s1 = upd s (s_nodes s) tr c /\ store_ok tick (s_nodes s) tr (unwrap_or (c !! tick) 0) L /\
    (L d = [] /\ (exists k, root = new_node tick d k ntype_default) \/
     L d <> [] /\ exists k, tr !! (tick, d) = Some k /\ s_nodes s !! (tick, k) = Some root).
Proof.
  intros Hs E1. rewrite (upd_id s) in E1.
  assert (HU' : L d = [] -> unwrap_or (s_nodectr s !! tick) 0 + 1 <= U64_MAX).
  { intros HL. destruct (Z.le_gt_cases (unwrap_or (s_nodectr s !! tick) 0 + 1) U64_MAX); [assumption|]. exfalso.
    rewrite (get_or_init_panic tick d s _ _ _ _ L Hs eq_refl HL ltac:(lia)) in E1. discriminate. }
  destruct (get_or_init_store tick d s _ _ _ _ L Hs eq_refl HU') as (root' & tr0 & c0 & ctr0 & E & Hs0 & Hc0 & Hle & Hcase & _).
  rewrite E in E1. injection E1 as <- <-. exists tr0, c0. split; [reflexivity|]. rewrite Hc0. split; [exact Hs0|].
  destruct Hcase as [(HL & -> & _)|(HL & _ & Hk)]; [left|right]; eauto.
Qed.
(** Looking up the sum of the cancellations below a point needs a number of nodes logarithmic in the number of cancellations. *)
Lemma prefix_needs tick d s m tr c ctr L root x old : store_ok tick m tr ctr L ->
  (L d = [] /\ (exists k, root = new_node tick d k ntype_default) \/
   L d <> [] /\ exists k, tr !! (tick, d) = Some k /\ m !! (tick, k) = Some root) ->
  needs (6 * lg (L d) + 3) (upd s m tr c) (mreadr (fun s => get_prefix_sum s root x old)).
Proof.
  intros Hs Hroot.
  assert (G : exists cells, Z.of_nat (length cells) <= 6 * lg (L d) + 3 /\
    forall s', agree cells (upd s m tr c) s' -> get_prefix_sum s' root x old = get_prefix_sum (upd s m tr c) root x old).
  { set (s0 := upd s m tr c). destruct Hroot as [(HL & k & ->)|(HL & k & Hk & Hm)].
    - exists []. pose proof (lg_pos (L d)). split; [cbn; lia|]. intros s' _. unfold get_prefix_sum, tree_fuel. rewrite !walk_step. unfold walk_body.
      unfold get_left, get_right. cbn [new_node n_left n_right load_child ntype_default get_min_range get_max_range n_type is_internal rbind]. reflexivity.
    - destruct (so_rep _ _ _ _ _ Hs d) as [K HK]. destruct HK as [H|k1 kl e v H1 H2 H3 H4|k1 l r H1 H2 H3 H4]; [congruence| |].
      + rewrite H1 in Hk. injection Hk as <-. rewrite H3 in Hm. injection Hm as <-.
        exists [CNode tick kl]. change (lg [(e, v)]) with 0. split; [cbn; lia|]. intros s' Ha. unfold get_prefix_sum, tree_fuel. rewrite !walk_step.
        assert (Hc : s_nodes s' !! (tick, kl) = m !! (tick, kl)) by (apply (Ha (CNode tick kl)); constructor). rewrite H4 in Hc.
        set (root := mkNode k1 tick d (Some kl) None None (NInternal v e (v + e) 2)) in *.
        assert (El : forall q, q = s' \/ q = s0 -> get_left q root = Some (mkNode kl tick d None None (Some k1) (NLeaf v e))).
        { intros q [->| ->]; [exact Hc|exact H4]. }
        rewrite !El by auto. change (get_right s' root) with (@None tnode). change (get_right s0 root) with (@None tnode).
        destruct (body_once root (Some (mkNode kl tick d None None (Some k1) (NLeaf v e))) None (get_value root) x old) as [(w & Hv)|(n & c1 & t1 & Hn & _ & Hv)].
        * rewrite !Hv. reflexivity.
        * rewrite !Hv. destruct Hn as [Hn|Hn]; [|discriminate]. injection Hn as <-. rewrite !walk_step. unfold walk_body.
          destruct (_ <? _); [reflexivity|]. destruct (get_max_range _); reflexivity.
      + rewrite H1 in Hk. injection Hk as <-. pose proof (repr_lookup _ _ _ _ _ H2) as Hr. cbn [tkey] in Hr. rewrite Hr in Hm. injection Hm as <-.
        assert (HR : repr tick d (s_nodes s0) None (TNode k1 l r)) by exact H2.
        destruct (branch_fuel tick d s0 _ None HR H3) as (c1 & L1 & F1).
        destruct (tree_path tick d s0 _ None HR (get_value (node_of tick d None (TNode k1 l r))) x old (tree_fuel s0) (F1 s0 (fun q _ => same_refl s0 q))) as (c2 & L2 & F2).
        assert (Hh : theight (TNode k1 l r) <= 2 * lg (leaves (TNode k1 l r)) + 1).
        { pose proof (avl_height _ H4) as Hh. pose proof (theight_pos (TNode k1 l r)) as Hp.
          assert (Hlen : 0 < Z.of_nat (length (leaves (TNode k1 l r)))) by (destruct (leaves (TNode k1 l r)); [congruence|cbn [length]; lia]).
          apply height_log in Hh; [exact Hh|lia|exact Hlen]. }
        exists (c1 ++ c2). rewrite app_length. split; [lia|]. intros s' Ha. unfold get_prefix_sum. apply F2.
        * intros q Hq. apply Ha, elem_of_app. auto.
        * apply F1. intros q Hq. apply Ha, elem_of_app. auto. }
  destruct G as (cells & Hl & F). exists cells. split; [exact Hl|]. intros s' Ha. unfold mreadr. cbn [fst snd]. rewrite (F s' Ha).
  split; [reflexivity|apply effect_none].
Qed.

(** ** The insertion of a cancellation *)
Lemma nf_succ {A} n h s (m : M storage A) F : needsf n h s m (fun f => F (S f)) -> needsf n (S h) s m F.
Proof. intros (l & L & H). exists l. split; [exact L|]. intros f Hf. destruct f as [|f]; [lia|]. apply H. lia. Qed.
Lemma nf_weak {A} n n' h h' s (m : M storage A) F : needsf n h s m F -> n <= n' -> (h <= h')%nat -> needsf n' h' s m F.
Proof. intros (l & L & H) Hn Hh. exists l. split; [lia|]. intros f Hf. apply H. lia. Qed.
Lemma nf_reads {A} n h s (m : M storage A) : reads n m -> needsf n h s m (fun _ => m).
Proof. intros H. apply needs_f, H. Qed.
Lemma nf_lift {A B} n h s (r : res A) (k : A -> M storage B) k' :
  (forall x, r = Ok x -> needsf n h s (k x) (k' x)) -> 0 <= n -> needsf n h s (mbindM (mlift r) k) (fun f => mbindM (mlift r) (fun x => k' x f)).
Proof.
  intros H Hn. apply (nf_bind n 0 n h s (mlift r) (fun _ => mlift r)); [apply nf_reads, r_lift| |lia|exact Hn].
  intros x s1 E. apply mlift_inv in E as [-> E]. apply H, E.
Qed.
Lemma nf_read {A B} n a h s (g : storage -> A) (k : A -> M storage B) k' :
  rd a g -> needsf (n - a) h s (k (g s)) (k' (g s)) -> 0 <= n - a -> needsf n h s (mbindM (mread g) k) (fun f => mbindM (mread g) (fun x => k' x f)).
Proof.
  intros Hg H Hn. apply (nf_bind n a (n - a) h s (mread g) (fun _ => mread g)); [apply nf_reads, r_read, Hg| |lia|exact Hn].
  intros x s1 E. apply mread_inv in E as [-> <-]. exact H.
Qed.
Lemma insert_needs tick d s m tr c new : forall t p, repr tick d m p t -> forall k l r, t = TNode k l r -> forall fuel, theight t <= Z.of_nat fuel ->
  needsf (26 * theight t - 25) (Z.to_nat (theight t)) (upd s m tr c) (node_insert fuel (node_of tick d p t) new) (fun f => node_insert f (node_of tick d p t) new).
Proof.
  induction t as [|k l IHl r IHr]; intros p Hrep k0 l0 r0 E fuel Hf; [discriminate|]. clear E k0 l0 r0.
  pose proof (theight_pos l) as Hl1. pose proof (theight_pos r) as Hr1. pose proof Hrep as (Hself & Hl & Hr).
  pose proof (repr_lookup _ _ _ _ _ Hl) as Hl0. pose proof (repr_lookup _ _ _ _ _ Hr) as Hr0.
  set (n := 26 * theight (TNode k l r) - 25). assert (Hn : 27 <= n) by (unfold n; cbn [theight]; lia).
  set (h := Z.to_nat (Z.max (theight l) (theight r))).
  assert (Hh : Z.to_nat (theight (TNode k l r)) = S h) by (unfold h; cbn [theight]; lia). rewrite Hh.
  destruct fuel as [|fuel]; [cbn [theight] in Hf; lia|]. apply nf_succ. cbn [node_insert].
  assert (Hfu : (h <= fuel)%nat) by (unfold h; cbn [theight] in Hf; lia).
  set (self := node_of tick d p (TNode k l r)).
  apply nf_lift; [intros _ _|lia]. apply nf_lift; [intros _ _|lia].
  assert (GL : get_left (upd s m tr c) self = Some (node_of tick d (Some k) l)) by exact Hl0.
  assert (GR : get_right (upd s m tr c) self = Some (node_of tick d (Some k) r)) by exact Hr0.
  apply (nf_read n 1); [apply rd_left| |lia]. cbv beta. rewrite GL. apply (nf_read (n - 1) 1); [apply rd_right| |lia]. cbv beta. rewrite GR.
  apply nf_lift; [intros _ _|lia]. apply nf_lift; [intros inl _|lia]. apply nf_lift; [intros inr _|lia]. apply nf_lift; [intros lt _|lia].
  assert (Hrec : forall t', is_internal (node_of tick d (Some k) t') = true -> theight t' <= theight (TNode k l r) - 1 ->
      (forall k' l' r', t' = TNode k' l' r' -> forall fuel0, theight t' <= Z.of_nat fuel0 ->
         needsf (26 * theight t' - 25) (Z.to_nat (theight t')) (upd s m tr c) (node_insert fuel0 (node_of tick d (Some k) t') new) (fun f => node_insert f (node_of tick d (Some k) t') new)) ->
      needsf (n - 1 - 1) h (upd s m tr c) (let! _ := node_save self in
        let! r1 := node_insert fuel (node_of tick d (Some k) t') new in
        let! self := rebalance self in mret (self, snd r1))
      (fun f => let! _ := node_save self in
        let! r1 := node_insert f (node_of tick d (Some k) t') new in
        let! self := rebalance self in mret (self, snd r1))).
  { intros t' Ht' Hht IH. cbn [theight] in Hht.
    apply (nf_bind _ 0 (n - 2) h (upd s m tr c) (node_save self) (fun _ => node_save self) _
      (fun _ f => let! r1 := node_insert f (node_of tick d (Some k) t') new in let! self := rebalance self in mret (self, snd r1))); [apply nf_reads, r_node| |lia|lia].
    intros x s1 E. unfold self in E. rewrite (upd_save_id s m tr c (node_of tick d p (TNode k l r)) Hself) in E. injection E as <- _.
    destruct t' as [|k' l' r']; [discriminate|]. specialize (IH _ _ _ eq_refl fuel). cbn [theight] in IH. cbn [theight] in Hht.
    apply (nf_bind _ (n - 26) 24 h (upd s m tr c) (node_insert fuel (node_of tick d (Some k) (TNode k' l' r')) new)
       (fun f => node_insert f (node_of tick d (Some k) (TNode k' l' r')) new) _
       (fun r1 _ => let! self := rebalance self in mret (self, snd r1))); [| |lia|lia].
    - eapply nf_weak; [apply IH; unfold h in Hfu; lia| |]; [unfold n; cbn [theight]; lia|unfold h; lia].
    - intros y s2 _. apply nf_reads. rr. }
  assert (Hw : forall a b (f : Z -> tnode), needsf (n - 1 - 1) h (upd s m tr c) (let! r1 := node_split a b in let! _ := node_save (f (snd r1)) in
       let! self := rebalance (f (snd r1)) in mret (self, snd (fst r1)))
       (fun _ => let! r1 := node_split a b in let! _ := node_save (f (snd r1)) in
       let! self := rebalance (f (snd r1)) in mret (self, snd (fst r1)))).
  { intros a b f. apply nf_reads. eapply (r_weak 25); [|lia]. rr. }
  destruct (is_internal (node_of tick d (Some k) l)) eqn:Il; destruct (is_internal (node_of tick d (Some k) r)) eqn:Ir; cbn [andb negb];
    destruct inl, inr; cbn [andb negb];
    lazymatch goal with
    | |- needsf _ _ _ (mlift _) _ => apply nf_reads; eapply r_weak; [apply r_lift|lia]
    | |- context [node_insert fuel (node_of tick d (Some k) l)] => apply (Hrec l); [assumption|cbn [theight]; lia|eauto]
    | |- context [node_insert fuel (node_of tick d (Some k) r)] => apply (Hrec r); [assumption|cbn [theight]; lia|eauto]
    | |- context [node_split (node_of tick d (Some k) l)] => exact (Hw (node_of tick d (Some k) l) new (fun x => n_set_left self (Some x)))
    | |- context [node_split (node_of tick d (Some k) r)] => exact (Hw (node_of tick d (Some k) r) new (fun x => n_set_right self (Some x)))
    end.
Qed.
Lemma insert_needs_small s root new fuel : get_right s root = None -> (forall l, get_left s root = Some l -> is_internal l = false) ->
  needsf 26 1 s (node_insert (S fuel) root new) (fun f => node_insert f root new).
Proof.
  intros Hr Hl. apply nf_succ. cbn [node_insert]. apply nf_lift; [intros _ _|lia]. apply nf_lift; [intros _ _|lia].
  apply (nf_read 26 1); [apply rd_left| |lia]. cbv beta. destruct (get_left s root) as [l|] eqn:El.
  - apply (nf_read (26 - 1) 1); [apply rd_right| |lia]. cbv beta. rewrite Hr. rewrite (Hl l eq_refl). cbn [andb].
    apply nf_reads. rr.
  - apply (nf_read (26 - 1) 1); [apply rd_right| |lia]. cbv beta. rewrite Hr. apply nf_reads. rr.
Qed.
Lemma needs_fuel {A} n a h s (F : nat -> M storage A) : needsf n h s (F (tree_fuel s)) F ->
  (exists cells, Z.of_nat (length cells) <= a /\ forall s', agree cells s s' -> (h <= tree_fuel s')%nat) ->
  needs (n + a) s (fun s => F (tree_fuel s) s).
Proof.
  intros (l1 & L1 & H) (l2 & L2 & H2). exists (l1 ++ l2). rewrite app_length. split; [lia|]. intros s' Ha.
  apply (H (tree_fuel s')); [|intros c Hc; apply Ha, elem_of_app; auto]. apply H2. intros c Hc. apply Ha, elem_of_app; auto.
Qed.
Lemma tree_fuel_needs n a h s root new : needsf n h s (node_insert (tree_fuel s) root new) (fun f => node_insert f root new) ->
  (exists cells, Z.of_nat (length cells) <= a /\ forall s', agree cells s s' -> (h <= tree_fuel s')%nat) ->
  needs (n + a) s (tree_insert root new).
Proof. apply (needs_fuel n a h s (fun f => node_insert f root new)). Qed.
Lemma tree_needs tick d s m tr c ctr L root new : store_ok tick m tr ctr L ->
  (L d = [] /\ (exists k, root = new_node tick d k ntype_default) \/
   L d <> [] /\ exists k, tr !! (tick, d) = Some k /\ m !! (tick, k) = Some root) ->
  needs (54 * lg (L d) + 26) (upd s m tr c) (tree_insert root new).
Proof.
  intros Hs Hroot. set (s0 := upd s m tr c). pose proof (lg_pos (L d)) as Hlg.
  assert (Small : get_right s0 root = None -> (forall l, get_left s0 root = Some l -> is_internal l = false) -> needs (54 * lg (L d) + 26) s0 (tree_insert root new)).
  { intros Hr Hl. apply (n_weak 26); [|lia]. replace 26 with (26 + 0) by lia.
    apply (needs_fuel 26 0 1 s0 (fun f => node_insert f root new)); [apply insert_needs_small; assumption|].
    exists []. split; [reflexivity|]. intros s' _. unfold tree_fuel. lia. }
  destruct Hroot as [(HL & k & ->)|(HL & k & Hk & Hm)].
  - apply Small; [reflexivity|]. intros l E. discriminate E.
  - destruct (so_rep _ _ _ _ _ Hs d) as [K HK]. destruct HK as [H|k1 kl e v H1 H2 H3 H4|k1 l r H1 H2 H3 H4]; [congruence| |].
    + rewrite H1 in Hk. injection Hk as <-. rewrite H3 in Hm. injection Hm as <-. apply Small; [reflexivity|].
      unfold get_left. cbn [n_left n_tick load_child]. change (s_nodes s0) with m. rewrite H4. intros l [= <-]. reflexivity.
    + rewrite H1 in Hk. injection Hk as <-. pose proof (repr_lookup _ _ _ _ _ H2) as Hr. cbn [tkey] in Hr. rewrite Hr in Hm. assert (Hnode : node_of tick d None (TNode k1 l r) = root) by (apply (inj Some); exact Hm). clear Hm.
      destruct (branch_fuel tick d s0 _ None H2 H3) as (c1 & L1 & F1).
      assert (Hh : theight (TNode k1 l r) <= 2 * lg (leaves (TNode k1 l r)) + 1).
      { pose proof (avl_height _ H4) as Hh. pose proof (theight_pos (TNode k1 l r)) as Hp.
        assert (Hlen : 0 < Z.of_nat (length (leaves (TNode k1 l r)))) by (destruct (leaves (TNode k1 l r)); [congruence|cbn [length]; lia]).
        apply height_log in Hh; [exact Hh|lia|exact Hlen]. }
      pose proof (insert_needs tick d s m tr c new _ None H2 _ _ _ eq_refl (tree_fuel s0) (F1 s0 (fun q _ => same_refl s0 q))) as N.
      apply (n_weak (26 * theight (TNode k1 l r) - 25 + theight (TNode k1 l r))); [|lia].
      fold s0 in N. rewrite Hnode in N. apply (tree_fuel_needs _ _ _ s0 root new N).
      exists c1. split; [lia|]. intros s' Ha. specialize (F1 s' Ha). lia.
Qed.

(** ** Programs that keep the trees *)
Section trees.
  Context (L : Z -> dir -> list (Z * Z)).
  Definition nd {A} (n : Z) (m : M storage A) : Prop := forall s, stores L s -> needs n s m /\ stores L (fst (m s)).
  Lemma nd_weak {A} a b (m : M storage A) : nd a m -> a <= b -> nd b m.
  Proof. intros H Hle s Hs. destruct (H s Hs) as [N K]. split; [eapply n_weak; eauto|exact K]. Qed.
  Lemma nd_bind {A B} n a (m : M storage A) (k : A -> M storage B) : nd a m -> (forall x, nd (n - a) (k x)) -> 0 <= n - a -> nd n (mbindM m k).
  Proof.
    intros H K Hn s Hs. destruct (H s Hs) as [N S]. split.
    - eapply n_bind; [exact N| |exact Hn]. intros x s1 E. apply K. rewrite E in S. exact S.
    - unfold mbindM. destruct (m s) as [s1 [x| | |]]; cbn [fst] in S |- *; try exact S. apply K, S.
  Qed.
  Lemma nd_assoc {A B C} n (m : M storage A) (k : A -> M storage B) (k' : B -> M storage C) :
    nd n (mbindM m (fun a => mbindM (k a) k')) -> nd n (mbindM (mbindM m k) k').
  Proof.
    intros H s Hs. destruct (H s Hs) as [(l & Hl & S) K]. rewrite bind_assoc. split; [|exact K]. exists l. split; [exact Hl|].
    intros s' Ha. rewrite !bind_assoc. exact (S s' Ha).
  Qed.
  Lemma nd_reads {A} n (m : M storage A) : reads n m ->
    (forall s, s_nodes (fst (m s)) = s_nodes s /\ s_tree (fst (m s)) = s_tree s /\ s_nodectr (fst (m s)) = s_nodectr s) -> nd n m.
  Proof. intros H K s Hs. split; [apply H|]. destruct (K s) as (E1 & E2 & E3). unfold stores. rewrite E1, E2, E3. exact Hs. Qed.
  Lemma init_stores t d s s1 root : stores L s -> get_or_init_root_node t d s = (s1, Ok root) -> stores L s1.
  Proof.
    intros Hs E. destruct (init_ok _ _ _ _ _ _ (Hs t) E) as (tr & c & Es1 & Ht & _). intros t'. rewrite (upd_id s) in E. rewrite Es1.
    change (store_ok t' (s_nodes s) tr (unwrap_or (c !! t') 0) (L t')).
    destruct (decide (t' = t)) as [->|Hne]; [exact Ht|].
    assert (HU' : L t d = [] -> unwrap_or (s_nodectr s !! t) 0 + 1 <= U64_MAX).
    { intros HL. destruct (Z.le_gt_cases (unwrap_or (s_nodectr s !! t) 0 + 1) U64_MAX); [assumption|]. exfalso.
      rewrite (get_or_init_panic t d s _ _ _ _ (L t) (Hs t) eq_refl HL ltac:(lia)) in E. discriminate. }
    destruct (get_or_init_store t d s _ _ _ _ (L t) (Hs t) eq_refl HU') as (root' & tr0 & c0 & ctr0 & E1 & _ & _ & _ & _ & Ft & Fc).
    rewrite E1 in E. assert (tr0 = tr /\ c0 = c) as [-> ->].
    { assert (X : upd s (s_nodes s) tr0 c0 = upd s (s_nodes s) tr c) by (rewrite <- Es1; congruence). split.
      - apply (f_equal s_tree) in X. exact X.
      - apply (f_equal s_nodectr) in X. exact X. }
    rewrite Fc by exact Hne. eapply store_frame; [apply Hs|reflexivity|]. intros d'. apply Ft. congruence.
  Qed.
  Lemma nd_root {A} t d (k : tnode -> M storage A) n :
    (forall root s tr c, stores L (upd s (s_nodes s) tr c) -> stores L s ->
      (L t d = [] /\ (exists k, root = new_node t d k ntype_default) \/
       L t d <> [] /\ exists k, tr !! (t, d) = Some k /\ s_nodes s !! (t, k) = Some root) ->
      needs (n - 3) (upd s (s_nodes s) tr c) (k root) /\ stores L (fst (k root (upd s (s_nodes s) tr c)))) ->
    3 <= n -> nd n (mbindM (get_or_init_root_node t d) k).
  Proof.
    intros H Hn s Hs. destruct (get_or_init_root_node t d s) as [s1 r] eqn:E.
    assert (P : forall root, r = Ok root -> needs (n - 3) s1 (k root) /\ stores L (fst (k root s1))).
    { intros root ->. pose proof (init_stores _ _ _ _ _ Hs E) as Hs1. destruct (init_ok _ _ _ _ _ _ (Hs t) E) as (tr & c & -> & _ & Hc). apply H; assumption. }
    split.
    - eapply n_bind; [apply r_init| |lia]. intros x s2 E2. rewrite E in E2. injection E2 as <- ->. apply P. reflexivity.
    - unfold mbindM. rewrite E. destruct r as [x|e| |]; [apply P; reflexivity| | |].
      all: unfold get_or_init_root_node in E; rewrite bind_read in E; destruct (get_root_node s t d) as [x0| | |]; [discriminate| | |];
        unfold mbindM in E; destruct (generate_node_id t s) as [s2 [id| | |]] eqn:Eg; try discriminate; assert (s1 = s2) as -> by congruence; cbn [fst];
        unfold generate_node_id in Eg; rewrite bind_read in Eg; destruct (_ <=? _); cbn in Eg; try discriminate; unfold mlift in Eg; assert (s2 = s) as -> by congruence; exact Hs.
  Qed.
  Lemma nowrite_bind {A B} (m : M storage A) (k : A -> M storage B) s : (fst (m s) = s) -> (forall x, fst (k x s) = s) -> fst (mbindM m k s) = s.
  Proof. intros H K. unfold mbindM. destruct (m s) as [s1 [x| | |]]; cbn [fst] in *; subst; auto. Qed.
  Ltac same := intros; repeat split; reflexivity.
  Lemma nd_sync_dir t d tv x : nd (6 * lg (L t d) + 6) (sync_tick_dir t d tv x).
  Proof.
    unfold sync_tick_dir. pose proof (lg_pos (L t d)). destruct (_ =? _).
    { apply nd_reads; [eapply r_weak; [apply r_ret|lia]|]. same. }
    cbv zeta. apply nd_root; [|lia]. intros root s tr c H1 H2 Hroot. split.
    - eapply n_bind; [eapply prefix_needs; [apply H1|exact Hroot]| |lia]. intros y s1 _.
      match goal with |- needs _ _ ?m => assert (R : reads 0 m) by rr end. eapply n_weak; [apply R|lia].
    - match goal with |- stores L (fst (?m ?s0)) => assert (W : fst (m s0) = s0) end; [|rewrite W; exact H1].
      repeat (apply nowrite_bind; [reflexivity|intros]). reflexivity.
  Qed.
  Lemma nd_sync t a b : nd (6 * lg (L t Bid) + 6 * lg (L t Ask) + 13) (sync_tick t a b).
  Proof.
    unfold sync_tick. pose proof (lg_pos (L t Bid)). pose proof (lg_pos (L t Ask)).
    eapply (nd_bind _ 1); [apply nd_reads; [solve [rr]|same]|intros ts|lia]. cbv zeta. destruct (_ && _).
    { apply nd_reads; [eapply r_weak; [apply r_ret|lia]|]. same. }
    eapply nd_bind; [apply nd_sync_dir| |lia]. intros bv. eapply nd_bind; [apply nd_sync_dir| |lia]. intros av.
    apply nd_reads; [eapply r_weak; [apply r_tick|lia]|]. same.
  Qed.
  Ltac nd1 :=
    match goal with
    | |- nd _ (mbindM (mbindM _ _) _) => apply nd_assoc
    | |- nd _ (mbindM (match ?x with _ => _ end) _) => destruct x
    | |- nd _ (mbindM (sync_tick _ _ _) _) => eapply nd_bind; [apply nd_sync|intros|lia]; cbv zeta
    | |- nd _ (mbindM _ _) => eapply nd_bind; [apply nd_reads; [solve [eauto with rr nocore]|solve [same]]|intros|lia]; cbv zeta
    | |- nd _ (match ?x with _ => _ end) => destruct x
    | |- nd _ _ => apply nd_reads; [eapply r_weak; [solve [eauto with rr nocore]|lia]|solve [same]]
    end.
  Lemma nd_claim a t id : nd (6 * lg (L t Bid) + 6 * lg (L t Ask) + 19) (claim_order a t id).
  Proof. unfold claim_order. pose proof (lg_pos (L t Bid)). pose proof (lg_pos (L t Ask)). repeat nd1. Qed.
  Fixpoint batch_reads (l : list (Z * Z)) : Z :=
    match l with [] => 0 | (t, _) :: l => 6 * lg (L t Bid) + 6 * lg (L t Ask) + 19 + batch_reads l end.
  Lemma batch_reads_pos l : 0 <= batch_reads l.
  Proof. induction l as [|[t id] l IH]; cbn [batch_reads]; [lia|]. pose proof (lg_pos (L t Bid)). pose proof (lg_pos (L t Ask)). lia. Qed.
  Lemma sim_catch {A B} c1 c2 s (m : M storage A) (k : res A -> M storage B) :
    sim c1 s m m -> (forall x s1, m s = (s1, x) -> sim c2 s1 (k x) (k x)) ->
    sim (c1 ++ c2) s (fun s => let r := m s in k (snd r) (fst r)) (fun s => let r := m s in k (snd r) (fst r)).
  Proof.
    intros H K s' Ha. destruct (H s') as [E F].
    { intros c Hc. apply Ha, elem_of_app. left. exact Hc. }
    destruct (m s) as [s1 r] eqn:Em, (m s') as [s1' r'] eqn:Em'. cbn [fst snd] in E, F |- *. subst r'.
    destruct (K r s1 eq_refl s1') as [E2 F2].
    { eapply effect_agree; [|exact F]. intros c Hc. apply Ha, elem_of_app. right. exact Hc. }
    split; [exact E2|]. eapply effect_trans; eauto.
  Qed.
  Lemma nd_loop ob a l : forall ms es, nd (batch_reads l) (batch_claim_loop ob a l ms es).
  Proof.
    induction l as [|[t id] l IH]; intros ms es; cbn [batch_claim_loop batch_reads]; [apply nd_reads; [apply r_ret|same]|].
    intros s Hs. destruct (nd_claim a t id s Hs) as [(c1 & L1 & S1) K1]. pose proof (batch_reads_pos l) as Hp.
    set (k := fun r : res (Z * list submsg * limit_order) => match r with
      | Ok (amount, bank, o) => batch_claim_loop ob a l (app ms bank)
          (app es [generate_claimed_order_event a o amount (get_expected_denom ob (o_dir o)) (get_opposite_denom ob (o_dir o))])
      | Err _ => batch_claim_loop ob a l ms es | Panic => mlift Panic | NoFuel => mlift NoFuel end).
    set (M0 := fun s => let r := claim_order a t id s in k (snd r) (fst r)).
    assert (EM : forall s, M0 s = match claim_order a t id s with
      | (s', Ok (amount, bank, o)) => let ev := generate_claimed_order_event a o amount (get_expected_denom ob (o_dir o)) (get_opposite_denom ob (o_dir o)) in
          batch_claim_loop ob a l (app ms bank) (app es [ev]) s'
      | (s', Err _) => batch_claim_loop ob a l ms es s' | (s', Panic) => (s', Panic) | (s', NoFuel) => (s', NoFuel) end).
    { intros s0. unfold M0. destruct (claim_order a t id s0) as [s1 [[[am bk] o]|er| |]]; reflexivity. }
    assert (Nk : forall r s1, stores L s1 -> needs (batch_reads l) s1 (k r) /\ stores L (fst (k r s1))).
    { intros r s1 H1. destruct r as [[[am bk] o]|er| |]; cbn [k]; try (apply IH, H1); (split; [eapply n_weak; [apply r_lift|lia]|exact H1]). }
    destruct (claim_order a t id s) as [s1 r] eqn:Er. cbn [fst] in K1. destruct (Nk r s1 K1) as [(c2 & L2 & S2) K2]. split.
    - exists (c1 ++ c2). rewrite app_length. split; [lia|]. intros s' Ha. rewrite <- !EM.
      apply (sim_catch c1 c2 s (claim_order a t id) k S1); [|exact Ha]. intros x s2 E2. rewrite Er in E2. injection E2 as <- <-. exact S2.
    - destruct r as [[[am bk] o]|er| |]; exact K2.
  Qed.
  Lemma n_batch s i l : stores L s -> needs (batch_reads l + 1) s (batch_claim_limits i l).
  Proof.
    intros Hs. unfold batch_claim_limits. pose proof (batch_reads_pos l) as Hp.
    eapply n_bind; [apply r_lift| |lia]. intros u s1 E. apply mlift_inv in E as [-> _].
    eapply n_bind; [apply r_ensure| |lia]. intros u2 s1 E. apply mensure_inv in E as [-> _].
    eapply (n_bind _ 1); [apply r_readr; rdone| |lia]. intros ob s1 E. apply mreadr_inv in E as [-> _].
    eapply (n_bind _ (batch_reads l)); [apply (nd_loop _ _ _ _ _ s Hs)| |lia]. intros r s1 _. eapply n_weak; [apply r_ret|lia].
  Qed.
End trees.

(** ** Whole calls *)
Lemma cancel_needs L s i t id : stores L s -> (forall o, s_orders s !! (t, id) = Some o -> o_tick o = t) ->
  needs (60 * lg (L t Bid) + 60 * lg (L t Ask) + 49) s (cancel_limit i t id).
Proof.
  intros Hs Ht. unfold cancel_limit. pose proof (lg_pos (L t Bid)) as P1. pose proof (lg_pos (L t Ask)) as P2.
  eapply n_bind; [apply r_lift| |lia]. intros u1 s1 E. apply mlift_inv in E as [-> _].
  eapply (n_bind _ 1); [apply r_readr; rdone| |lia]. intros o s1 E. apply mreadr_inv in E as [-> E]. apply ok_or_inv in E.
  pose proof (Ht o E) as Eo.
  eapply n_bind; [apply r_ensure| |lia]. intros u2 s1 E2. apply mensure_inv in E2 as [-> _].
  eapply (n_bind _ 1); [apply r_read; rdone| |lia]. intros ts s1 E2. apply mread_inv in E2 as [-> _]. cbv zeta.
  eapply n_bind; [apply (nd_sync L t _ _ s Hs)| |lia]. intros u3 s1 E2.
  pose proof (proj2 (nd_sync L t (tv_etas (get_values ts Bid)) (tv_etas (get_values ts Ask)) s Hs)) as Hs1. rewrite E2 in Hs1. cbn [fst] in Hs1. clear E2.
  eapply (n_bind _ 1); [apply r_read; rdone| |lia]. intros ts1 s2 E2. apply mread_inv in E2 as [-> _]. cbv zeta.
  eapply n_bind; [apply r_ensure| |lia]. intros u4 s2 E2. apply mensure_inv in E2 as [-> _].
  eapply (n_bind _ 3); [apply r_init| |lia]. intros root s2 E2.
  pose proof (init_stores L _ _ _ _ _ Hs1 E2) as Hs2. destruct (init_ok _ _ _ _ _ _ (Hs1 t) E2) as (tr & c & Es2 & Hst & Hroot).
  rewrite Eo. eapply (n_bind _ 1); [apply r_generate| |lia]. intros kn s3 E3.
  assert (Es3 : exists c', s3 = upd s1 (s_nodes s1) tr c').
  { subst s2. unfold generate_node_id in E3. rewrite bind_read in E3. destruct (_ <=? _); [|discriminate]. rewrite bind_mod in E3. injection E3 as <- _. eexists. reflexivity. }
  destruct Es3 as [c' ->].
  eapply (n_bind _ 1); [apply r_readr; rdone| |lia]. intros cts s4 E4. apply mreadr_inv in E4 as [-> _]. cbv zeta.
  eapply n_bind; [apply r_lift| |lia]. intros qd s4 E4. apply mlift_inv in E4 as [-> _].
  eapply (n_bind _ (54 * lg (L t (o_dir o)) + 26)); [eapply tree_needs; [exact Hst|exact Hroot]| |destruct (o_dir o); lia]. intros rr s4 _.
  match goal with |- needs _ _ ?mm => assert (R : reads 2 mm) by rr end. eapply n_weak; [apply R|destruct (o_dir o); lia].
Qed.
Lemma step_needs n e w c : needs n (w_st w) (call_run e c) -> looks_at n e w c.
Proof.
  intros (cells & Hl & S). exists cells. split; [exact Hl|]. intros s' Ha. specialize (S s' Ha). destruct S as [E F].
  unfold same_run, step. cbn [w_st w_self w_bal]. destruct (call_run e c (w_st w)) as [s1 r1], (call_run e c s') as [s1' r1']. cbn [fst snd] in E, F. subst r1'.
  destruct r1 as [r|er| |]; cbn [fst snd w_bal w_st]; try (split; [reflexivity|]; split; [reflexivity|apply effect_none]).
  destruct (sends e (w_self w) (credits (w_bal w) (call_funds c)) (r_msgs r)); cbn [fst snd w_bal w_st]; (split; [reflexivity|]; split; [reflexivity|]); [exact F|apply effect_none].
Qed.
Lemma book_stores w0 h : start w0 -> history w0 h -> exists L, stores L (w_st (run w0 h)) /\
  (forall t d, lg (L t d) = Z.log2 (Z.of_nat (length (cancelled w0 h t d)))) /\
  (forall t id o, s_orders (w_st (run w0 h)) !! (t, id) = Some o -> o_tick o = t).
Proof.
  intros Hs Hh. destruct (run_track w0 h Hs Hh) as (G & Hg & Ht & _). exists (canl G). split; [|split].
  - intros t. apply (i_store _ _ (gd_inv _ _ _ Hg)).
  - intros t d. unfold lg. rewrite (Permutation_length (tk_cans _ _ _ Ht t d)). reflexivity.
  - intros t id o E. apply (oo_tick _ _ _ _ (i_order _ _ (gd_inv _ _ _ Hg) _ _ E)).
Qed.
(** Placing an order depends on at most five stored entries and governance calls on at most two, whatever the book holds and
    whether or not the call is accepted; migrating and receiving coins depend on none. *)
Theorem C69_bounded_calls :
  forall e w c,
  match c with
  | CExec _ (PlaceLimit _ _ _ _) => looks_at 5 e w c
  | CExec _ (AuthMsg _) => looks_at 2 e w c
  | CSudo (SudoTransferAdmin _) | CSudo SudoRemoveAdmin | CSudo (SudoSetActive _) | CSudo (SwapExactAmountOut _ _ _ _ _) => looks_at 1 e w c
  | CMigrate | CDonate _ => looks_at 0 e w c
  | _ => True
  end.
Proof.
  intros e w c. pose proof r_place as P. pose proof r_auth as Au.
  destruct c as [i m|m| |]; [destruct m|destruct m| |]; try exact I; apply step_needs; cbn [call_run];
    unfold execute, sudo, migrate, update_admin, remove_admin, set_active, addr_validate.
  - assert (R : reads 5 (mbindM ensure_is_active (fun _ => place_limit e i tick d q bounty))) by rr. apply R.
  - assert (R : reads 2 (mbindM (mret tt) (fun _ => auth_dispatch e i m))) by rr. apply R.
  - match goal with |- needs _ _ ?mm => assert (R : reads 1 mm) by rr; apply R end.
  - match goal with |- needs _ _ ?mm => assert (R : reads 1 mm) by rr; apply R end.
  - match goal with |- needs _ _ ?mm => assert (R : reads 1 mm) by rr; apply R end.
  - match goal with |- needs _ _ ?mm => assert (R : reads 1 mm) by rr; apply R end.
  - apply r_ret.
  - apply r_ret.
Qed.
Print Assumptions C69_bounded_calls.
Definition depth (w0 : world) (h : list (env * call)) (t : Z) (d : dir) : Z := Z.log2 (Z.of_nat (length (cancelled w0 h t d))).
(** Claiming or cancelling an order depends on a number of entries logarithmic in the number of orders cancelled so far at
    its tick, whether or not the call is accepted: not on how many orders are open, filled or cancelled elsewhere. *)
Theorem C69_orders :
  forall w0 h, start w0 -> history w0 h -> let w := run w0 h in
  forall e i t id,
  looks_at (6 * depth w0 h t Bid + 6 * depth w0 h t Ask + 21) e w (CExec i (ClaimLimit t id)) /\
  looks_at (60 * depth w0 h t Bid + 60 * depth w0 h t Ask + 50) e w (CExec i (CancelLimit t id)).
Proof.
  intros w0 h Hs Hh w e i t id. destruct (book_stores w0 h Hs Hh) as (L & HL & Hd & Ho). fold w in HL, Ho. unfold depth. rewrite <- !Hd.
  pose proof (lg_pos (L t Bid)) as P1. pose proof (lg_pos (L t Ask)) as P2.
  split; apply step_needs; cbn [call_run]; unfold execute.
  - eapply (n_bind _ 1); [apply r_active_call| |lia]. intros u s1 E. unfold ensure_is_active in E. rewrite bind_read in E. apply mensure_inv in E as [-> _].
    unfold claim_limit. eapply n_bind; [apply r_lift| |lia]. intros u2 s1 E. apply mlift_inv in E as [-> _].
    eapply n_bind; [apply (nd_claim L (i_sender i) t id _ HL)| |lia]. intros [[am ms] o] s1 _.
    match goal with |- needs _ _ ?mm => assert (R : reads 1 mm) by rr end. eapply n_weak; [apply R|lia].
  - eapply (n_bind _ 1); [apply r_active_call| |lia]. intros u s1 E. unfold ensure_is_active in E. rewrite bind_read in E. apply mensure_inv in E as [-> _].
    eapply n_weak; [apply cancel_needs; [exact HL|intros o; apply Ho]|lia].
Qed.
Print Assumptions C69_orders.
(** A batch of claims depends on what its entries depend on, one after the other. *)
Fixpoint batch_depth (w0 : world) (h : list (env * call)) (l : list (Z * Z)) : Z :=
  match l with [] => 0 | (t, _) :: l => 6 * depth w0 h t Bid + 6 * depth w0 h t Ask + 19 + batch_depth w0 h l end.
Theorem C69_batch :
  forall w0 h, start w0 -> history w0 h -> let w := run w0 h in
  forall e i l, looks_at (batch_depth w0 h l + 2) e w (CExec i (BatchClaim l)).
Proof.
  intros w0 h Hs Hh w e i l. destruct (book_stores w0 h Hs Hh) as (L & HL & Hd & _). fold w in HL.
  assert (E : batch_depth w0 h l = batch_reads L l).
  { induction l as [|[t id] l IH]; cbn [batch_depth batch_reads]; [reflexivity|]. unfold depth. rewrite <- !Hd, IH. reflexivity. }
  rewrite E. pose proof (batch_reads_pos L l) as Hp. apply step_needs. cbn [call_run]. unfold execute.
  eapply (n_bind _ 1); [apply r_active_call| |lia]. intros u s1 E1. unfold ensure_is_active in E1. rewrite bind_read in E1. apply mensure_inv in E1 as [-> _].
  eapply n_weak; [apply (n_batch L), HL|lia].
Qed.
Print Assumptions C69_batch.

(** ** Swaps *)
Definition simP {A} (P : cell -> Prop) (s : storage) (m : M storage A) : Prop :=
  forall s', agree_on P s s' -> snd (m s') = snd (m s) /\ same_effect s s' (fst (m s)) (fst (m s')).
Lemma effect_agreeP P s s' t t' : agree_on P s s' -> same_effect s s' t t' -> agree_on P t t'.
Proof.
  intros Ha He c Hc. destruct (He c) as [H|[H1 H2]]; [exact H|]. specialize (Ha c Hc).
  eapply same_trans; [apply same_sym, H1|]. eapply same_trans; [exact Ha|exact H2].
Qed.
Lemma p_bind {A B} P s (m : M storage A) (k : A -> M storage B) :
  simP P s m -> (forall x s1, m s = (s1, Ok x) -> simP P s1 (k x)) -> simP P s (mbindM m k).
Proof.
  intros H K s' Ha. destruct (H s' Ha) as [E F].
  unfold mbindM. destruct (m s) as [s1 r] eqn:Em, (m s') as [s1' r'] eqn:Em'. cbn [fst snd] in E, F. subst r'.
  destruct r as [x|e| |]; cbn [fst snd]; [|split; [reflexivity|exact F]..].
  destruct (K x s1 eq_refl s1') as [E2 F2]; [eapply effect_agreeP; eauto|].
  split; [exact E2|]. eapply effect_trans; eauto.
Qed.
Lemma p_pure {A} P s (m : M storage A) : reads 0 m -> simP P s m.
Proof.
  intros H s' _. destruct (H s) as (l & L & S). destruct l as [|c l]; [|cbn [length] in L; lia]. apply S. intros c Hc. inversion Hc.
Qed.
Lemma p_readr {A} P s (f : storage -> res A) : (forall s', agree_on P s s' -> f s' = f s) -> simP P s (mreadr f).
Proof. intros H s' Ha. unfold mreadr. cbn [fst snd]. rewrite (H s' Ha). split; [reflexivity|apply effect_none]. Qed.
Lemma p_read {A} P s (f : storage -> A) : (forall s', agree_on P s s' -> f s' = f s) -> simP P s (mread f).
Proof. intros H s' Ha. unfold mread. cbn [fst snd]. rewrite (H s' Ha). split; [reflexivity|apply effect_none]. Qed.
Lemma foldl_same (l : list (Z * tick_state)) (m m' : gmap Z tick_state) t :
  foldl (fun m p => <[p.1 := p.2]> m) m' l !! t = foldl (fun m p => <[p.1 := p.2]> m) m l !! t \/
  (foldl (fun m p => <[p.1 := p.2]> m) m l !! t = m !! t /\ foldl (fun m p => <[p.1 := p.2]> m) m' l !! t = m' !! t).
Proof.
  revert m m'. induction l as [|[u ts] l IH]; intros m m'; cbn [foldl]; [auto|]. destruct (IH (<[u := ts]> m) (<[u := ts]> m')) as [E|[E1 E2]]; [auto|].
  destruct (ins_same m m' u t ts) as [E|[E3 E4]].
  - left. cbn [fst snd] in *. rewrite E1, E2. exact E.
  - right. cbn [fst snd] in *. rewrite E1, E2, E3, E4. auto.
Qed.
Lemma r_save_ticks l : reads 0 (save_ticks l).
Proof.
  apply r_mod. intros s s' c. destruct c; cbn; try (right; split; reflexivity). apply foldl_same.
Qed.
Lemma loop_ext d (T T' : gmap Z tick_state) l : (forall t, t ∈ l -> T' !! t = T !! t) -> forall m, market_loop d T' l m = market_loop d T l m.
Proof.
  induction l as [|t l IH]; intros H m; cbn [market_loop]; [reflexivity|].
  assert (E : market_tick d T' t m = market_tick d T t m) by (unfold market_tick; rewrite (H t) by constructor; reflexivity).
  rewrite E. destruct (market_tick d T t m) as [[b m1]| | |]; cbn [rbind fst snd]; try reflexivity. destruct b; [|reflexivity].
  apply IH. intros u Hu. apply H. constructor. exact Hu.
Qed.
Lemma ticks_ext ob d bound (T T' : gmap Z tick_state) : (forall t, swap_range ob d bound t -> (is_Some (T' !! t) <-> is_Some (T !! t))) ->
  market_ticks ob d bound T' = market_ticks ob d bound T.
Proof.
  intros H. destruct (market_ticks ob d bound T) as [l| | |] eqn:E, (market_ticks ob d bound T') as [l'| | |] eqn:E';
    try (unfold market_ticks in E, E'; destruct d; destruct (rensure _ _); cbn [rbind] in E, E'; congruence).
  f_equal. destruct (market_ticks_spec _ _ _ _ _ E) as (O & M & _). destruct (market_ticks_spec _ _ _ _ _ E') as (O' & M' & _).
  apply (ordered_unique d); [exact O'|exact O|]. intros t. rewrite M, M'. specialize (H t). tauto.
Qed.
Lemma direction_of ob tin out d m : tin <> out -> direction_from_pair ob tin out = Ok d -> out = get_expected_denom ob m -> d = opposite m.
Proof.
  unfold direction_from_pair. intros Hne. destruct (bool_decide_reflect (ob_base ob = tin /\ ob_quote ob = out)) as [[E1 E2]|].
  - intros [= <-] Hm. destruct m; [reflexivity|]. cbn in Hm. congruence.
  - destruct (bool_decide_reflect (ob_quote ob = tin /\ ob_base ob = out)) as [[E1 E2]|]; [|discriminate].
    intros [= <-] Hm. destruct m; [|reflexivity]. cbn in Hm. congruence.
Qed.
Lemma internal_ext s s' qty m target : agree_on (swap_cells s m target) s s' ->
  let bound := unwrap_or target (match opposite m with Bid => MAX_TICK | Ask => MIN_TICK end) in
  run_market_order_internal s' qty (opposite m) bound = run_market_order_internal s qty (opposite m) bound.
Proof.
  intros Ha bound. unfold run_market_order_internal. destruct (rensure (negb (qty =? 0)) (EInvalidSwap ZeroInput)); cbn [rbind]; try reflexivity.
  unfold load_orderbook. rewrite (Ha COrderbook I). destruct (s_orderbook s) as [ob|] eqn:Eob; cbn [ok_or rbind]; [|reflexivity].
  destruct (rensure ((bound <=? MAX_TICK) && (MIN_TICK <=? bound)) (EInvalidTickId bound)); cbn [rbind]; try reflexivity.
  assert (Hr : forall t, swap_range ob (opposite m) bound t -> s_ticks s' !! t = s_ticks s !! t).
  { intros t Ht. apply (Ha (CTick t)). exists ob. split; [exact Eob|]. unfold swap_range in Ht.
    destruct m; cbn [opposite] in Ht; (split; [lia|]); intros b ->; cbn [bound unwrap_or opposite] in Ht; lia. }
  rewrite (ticks_ext ob (opposite m) bound (s_ticks s) (s_ticks s')).
  2:{ intros t Ht. rewrite (Hr t Ht). reflexivity. }
  destruct (market_ticks ob (opposite m) bound (s_ticks s)) as [l| | |] eqn:El; cbn [rbind]; try reflexivity.
  rewrite (loop_ext (opposite m) (s_ticks s) (s_ticks s') l); [reflexivity|]. intros t Ht. apply Hr.
  destruct (market_ticks_spec _ _ _ _ _ El) as (_ & M & _). apply M, Ht.
Qed.
Lemma p_swap e s sender tin out mn fee target m : out = deposit_denom s m ->
  simP (swap_cells s m target) s (dispatch_swap_exact_amount_in e sender tin out mn fee target).
Proof.
  intros Hout. unfold dispatch_swap_exact_amount_in. apply p_bind; [apply p_pure, r_lift|]. intros u1 s1 E. apply mlift_inv in E as [-> _].
  apply p_bind; [apply p_pure, r_ensure|]. intros u2 s1 E. apply mensure_inv in E as [-> Hne].
  apply p_bind; [apply p_readr; intros s' Ha; unfold load_orderbook; rewrite (Ha COrderbook I); reflexivity|]. intros ob s1 E.
  apply mreadr_inv in E as [-> Eob]. apply ok_or_inv in Eob. unfold deposit_denom in Hout. rewrite Eob in Hout.
  apply p_bind; [apply p_pure, r_lift|]. intros d s1 E. apply mlift_inv in E as [-> Ed].
  assert (Em : d = opposite m).
  { eapply direction_of; [|exact Ed|exact Hout]. intros C. rewrite bool_decide_true in Hne by exact C. discriminate. }
  subst d. apply p_bind; [apply p_pure, r_lift|]. intros u3 s1 E. apply mlift_inv in E as [-> _]. cbv zeta.
  apply p_bind; [|intros [[o dn] rest] s1 _; apply p_pure; rr].
  unfold run_market_order. apply p_bind; [apply p_readr; intros s' Ha; apply internal_ext; exact Ha|].
  intros r s1 E. apply mreadr_inv in E as [-> _]. cbv zeta. apply p_bind; [apply p_pure, r_save_ticks|]. intros u4 s1 _.
  apply p_bind; [apply p_pure, r_lift|]. intros outd s2 _. apply p_bind; [|intros u5 s3 _; apply p_pure; rr].
  unfold subtract_directional_liquidity. apply p_bind; [apply p_read; intros s' Ha|intros x s3 _; apply p_pure; rr].
  unfold get_directional_liquidity. rewrite opp_opp. rewrite (Ha (CLiquidity m) eq_refl). reflexivity.
Qed.
(** A swap depends on the switch, the book, the total of the side it trades against and the ticks of that side between the
    tick pointer and the target - not on orders, cancellations, fees, roles or the other side. *)
Theorem C69_swap_scope :
  forall e w sender tin out mn fee target m, out = deposit_denom (w_st w) m ->
  depends_on (swap_cells (w_st w) m target) e w (swap_call sender tin out mn fee target).
Proof.
  intros e w sender tin out mn fee target m Hout s' Ha.
  assert (S : simP (swap_cells (w_st w) m target) (w_st w) (call_run e (swap_call sender tin out mn fee target))).
  { assert (X : simP (swap_cells (w_st w) m target) (w_st w) (let! _ := ensure_is_active in dispatch_swap_exact_amount_in e sender tin out mn fee target)).
    { apply p_bind; [|intros u s1 E; unfold ensure_is_active in E; rewrite bind_read in E; apply mensure_inv in E as [-> _]; apply p_swap, Hout].
      unfold ensure_is_active. apply p_bind; [apply p_read; intros s2 Ha2; rewrite (Ha2 CActive I); reflexivity|intros; apply p_pure, r_ensure]. }
    destruct target; exact X. }
  destruct (S s' Ha) as [E F]. unfold same_run, step. cbn [w_st w_self w_bal].
  destruct (call_run e _ (w_st w)) as [s1 r1], (call_run e _ s') as [s1' r1']. cbn [fst snd] in E, F. subst r1'.
  destruct r1 as [r|er| |]; cbn [fst snd w_bal w_st]; try (split; [reflexivity|]; split; [reflexivity|apply effect_none]).
  destruct (sends e (w_self w) _ (r_msgs r)); cbn [fst snd w_bal w_st]; (split; [reflexivity|]; split; [reflexivity|]); [exact F|apply effect_none].
Qed.
Print Assumptions C69_swap_scope.

(** ** What a swap cannot avoid looking at *)
Definition keys_in (l : list (Z * tick_state)) (a b : list Z) : Prop := forall k, k ∈ map fst l -> k ∈ a \/ k ∈ b.
Lemma tick_upd d T t m b m' : market_tick d T t m = Ok (b, m') ->
  exists ts, T !! t = Some ts /\ let tv := get_values ts (opposite d) in
  (tv_tal tv = 0 /\ b = true /\ m' = m \/
   tv_tal tv <> 0 /\ b = false /\ m_upd m' = m_upd m \/
   tv_tal tv <> 0 /\ b = true /\ exists fill, fill <> 0 /\ m_upd m' = m_upd m ++
     [(t, set_values ts (opposite d) (mkTV (tv_tal tv - fill) (tv_ctt tv) (tv_etas tv + fill) (tv_crc tv) (tv_last tv)))]).
Proof.
  unfold market_tick. intros H. apply rbind_inv in H as (ts & E & H). apply ok_or_inv in E. exists ts. split; [exact E|]. cbv zeta in *.
  destruct (Z.eqb_spec (tv_tal (get_values ts (opposite d))) 0) as [Hz|Hz].
  - injection H as <- <-. left. auto.
  - right. apply rbind_inv in H as (price & _ & H). apply rbind_inv in H as (outq & _ & H). destruct (Z.eqb_spec outq 0) as [Ho|Ho].
    + injection H as <- <-. left. auto.
    + right. apply rbind_inv in H as (outd & Eo & H). apply rbind_inv in H as (tal & Et & H). apply rbind_inv in H as (etas & Ee & H).
      apply rbind_inv in H as (fill & _ & H). apply rbind_inv in H as (inp & _ & H). apply rbind_inv in H as (u & _ & H).
      apply rbind_inv in H as (i128 & _ & H). apply rbind_inv in H as (qty & _ & H). apply rbind_inv in H as (o & _ & H).
      injection H as <- <-. split; [exact Hz|]. split; [reflexivity|]. exists (if outd <? tv_tal (get_values ts (opposite d)) then outd else tv_tal (get_values ts (opposite d))).
      assert (Eout : outd = outq * DEC).
      { unfold dec_from_ratio, dec_checked_from_ratio in Eo. cbn in Eo. destruct (_ <=? _) in Eo; [|discriminate]. injection Eo as <-. rewrite Z.div_1_r. reflexivity. }
      split; [destruct (_ <? _); [unfold DEC in Eout; lia|exact Hz]|]. cbn [m_upd]. f_equal. f_equal. f_equal.
      unfold checked_sub in Et. destruct (_ <=? _) in Et; [|discriminate]. injection Et as <-.
      unfold checked_add256 in Ee. destruct (_ <=? _) in Ee; [|discriminate]. injection Ee as <-. reflexivity.
Qed.
Lemma loop_upd d T l : forall m r, market_loop d T l m = Ok r -> exists ext, m_upd r = m_upd m ++ ext /\ forall k, k ∈ map fst ext -> k ∈ l.
Proof.
  induction l as [|t l IH]; intros m r H; cbn [market_loop] in H.
  - injection H as <-. exists []. rewrite app_nil_r. split; [reflexivity|]. intros k Hk. inversion Hk.
  - apply rbind_inv in H as ([b m1] & E & H). cbn [fst snd] in H.
    assert (X : exists e1, m_upd m1 = m_upd m ++ e1 /\ forall k, k ∈ map fst e1 -> k = t).
    { apply tick_upd in E as (ts & _ & [(_ & _ & ->)|[(_ & _ & E)|(_ & _ & fill & _ & E)]]).
      - exists []. rewrite app_nil_r. split; [reflexivity|]. intros k Hk. inversion Hk.
      - exists []. rewrite app_nil_r. split; [exact E|]. intros k Hk. inversion Hk.
      - eexists. split; [exact E|]. intros k Hk. cbn in Hk. apply elem_of_list_singleton in Hk. exact Hk. }
    destruct X as (e1 & E1 & K1). destruct b.
    + destruct (IH _ _ H) as (e2 & E2 & K2). exists (e1 ++ e2). rewrite E2, E1, app_assoc. split; [reflexivity|].
      intros k Hk. rewrite map_app in Hk. apply elem_of_app in Hk as [Hk|Hk]; [rewrite (K1 k Hk); constructor|constructor; auto].
    + injection H as <-. exists e1. split; [exact E1|]. intros k Hk. rewrite (K1 k Hk). constructor.
Qed.
Lemma loop_app d T l2 l1 : forall m r, market_loop d T (l1 ++ l2) m = Ok r ->
  (exists ext, m_upd r = m_upd m ++ ext /\ forall k, k ∈ map fst ext -> k ∈ l1) \/
  (exists m1 ext, market_loop d T l2 m1 = Ok r /\ m_upd m1 = m_upd m ++ ext /\ (forall k, k ∈ map fst ext -> k ∈ l1) /\
     forall T' l2', (forall t, t ∈ l1 -> T' !! t = T !! t) -> market_loop d T' (l1 ++ l2') m = market_loop d T' l2' m1).
Proof.
  induction l1 as [|t l1 IH]; intros m r H; cbn [app market_loop] in H.
  - right. exists m, []. rewrite app_nil_r. split; [exact H|]. split; [reflexivity|]. split; [intros k Hk; inversion Hk|]. reflexivity.
  - apply rbind_inv in H as ([b m1] & E & H). cbn [fst snd] in H. pose proof E as E0.
    assert (X : exists e1, m_upd m1 = m_upd m ++ e1 /\ forall k, k ∈ map fst e1 -> k = t).
    { apply tick_upd in E as (ts & _ & [(_ & _ & ->)|[(_ & _ & E)|(_ & _ & fill & _ & E)]]).
      - exists []. rewrite app_nil_r. split; [reflexivity|]. intros k Hk. inversion Hk.
      - exists []. rewrite app_nil_r. split; [exact E|]. intros k Hk. inversion Hk.
      - eexists. split; [exact E|]. intros k Hk. cbn in Hk. apply elem_of_list_singleton in Hk. exact Hk. }
    destruct X as (e1 & E1 & K1). destruct b.
    + destruct (IH _ _ H) as [(e2 & E2 & K2)|(m2 & e2 & H2 & E2 & K2 & F)].
      * left. exists (e1 ++ e2). rewrite E2, E1, app_assoc. split; [reflexivity|].
        intros k Hk. rewrite map_app in Hk. apply elem_of_app in Hk as [Hk|Hk]; [rewrite (K1 k Hk); constructor|constructor; auto].
      * right. exists m2, (e1 ++ e2). split; [exact H2|]. rewrite E2, E1, app_assoc. split; [reflexivity|]. split.
        -- intros k Hk. rewrite map_app in Hk. apply elem_of_app in Hk as [Hk|Hk]; [rewrite (K1 k Hk); constructor|constructor; auto].
        -- intros T' l2' HT. cbn [app market_loop]. assert (Et : market_tick d T' t m = market_tick d T t m).
           { unfold market_tick. rewrite (HT t) by constructor. reflexivity. }
           rewrite Et, E0. cbn [rbind fst snd]. apply F. intros q Hq. apply HT. constructor. exact Hq.
    + injection H as <-. left. exists e1. split; [exact E1|]. intros k Hk. rewrite (K1 k Hk). constructor.
Qed.
Lemma fold_out (l : list (Z * tick_state)) t : t ∉ map fst l -> forall T : gmap Z tick_state, foldl (fun m p => <[p.1 := p.2]> m) T l !! t = T !! t.
Proof.
  induction l as [|[u ts] l IH]; intros H T; cbn [foldl]; [reflexivity|]. cbn [map fst] in H. rewrite IH by (intros C; apply H; constructor; exact C).
  cbn [fst snd]. apply lookup_insert_ne. intros ->. apply H. constructor.
Qed.
Lemma fold_last (l1 l2 : list (Z * tick_state)) t ts (T : gmap Z tick_state) : t ∉ map fst l2 -> foldl (fun m p => <[p.1 := p.2]> m) T (l1 ++ (t, ts) :: l2) !! t = Some ts.
Proof. intros H. rewrite foldl_app. cbn [foldl]. rewrite (fold_out l2 t H). apply lookup_insert. Qed.
Lemma swap_raw e w sender tin out mn fee target m w1 r :
  step e w (swap_call sender tin out mn fee target) = (w1, Done r) -> out = deposit_denom (w_st w) m ->
  exists ob l mm, s_orderbook (w_st w) = Some ob /\
    let bound := unwrap_or target (match opposite m with Bid => MAX_TICK | Ask => MIN_TICK end) in
    market_ticks ob (opposite m) bound (s_ticks (w_st w)) = Ok l /\
    market_loop (opposite m) (s_ticks (w_st w)) l (mkMkt (c_amount tin) ob 0 [] DEC) = Ok mm /\
    s_ticks (w_st w1) = foldl (fun m p => <[p.1 := p.2]> m) (s_ticks (w_st w)) (m_upd mm).
Proof.
  intros E Hout. unfold step in E.
  destruct (call_run e (swap_call sender tin out mn fee target) (w_st w)) as [s1 [x| | |]] eqn:Er; try discriminate.
  destruct (sends _ _ _ _) as [b|]; [|discriminate]. injection E as <- _. cbn [w_st].
  assert (X : (let! _ := ensure_is_active in dispatch_swap_exact_amount_in e sender tin out mn fee target) (w_st w) = (s1, Ok x)) by (destruct target; exact Er).
  clear Er. apply bind_inv in X as (u0 & s2 & A & X). unfold ensure_is_active in A. rewrite bind_read in A. apply mensure_inv in A as [-> _].
  unfold dispatch_swap_exact_amount_in in X.
  apply bind_inv in X as (u1 & s2 & A & X). apply mlift_inv in A as [-> _].
  apply bind_inv in X as (u2 & s2 & A & X). apply mensure_inv in A as [-> Hne].
  apply bind_inv in X as (ob & s2 & A & X). apply mreadr_inv in A as [-> Eob]. unfold load_orderbook in Eob. apply ok_or_inv in Eob.
  unfold deposit_denom in Hout. rewrite Eob in Hout.
  apply bind_inv in X as (d & s2 & A & X). apply mlift_inv in A as [-> Ed].
  assert (Em : d = opposite m).
  { eapply direction_of; [|exact Ed|exact Hout]. intros C. rewrite bool_decide_true in Hne by exact C. discriminate. }
  subst d. apply bind_inv in X as (u3 & s2 & A & X). apply mlift_inv in A as [-> _]. cbv zeta in X.
  apply bind_inv in X as ([[o dn] rest] & s2 & A & X). exists ob. unfold run_market_order in A.
  apply bind_inv in A as ([mm dn'] & s3 & A1 & A). apply mreadr_inv in A1 as [-> A1]. cbn [fst snd] in A.
  unfold run_market_order_internal in A1. apply rbind_inv in A1 as (v1 & _ & A1). apply rbind_inv in A1 as (ob' & B & A1).
  unfold load_orderbook in B. rewrite Eob in B. injection B as <-. cbv zeta in A1. apply rbind_inv in A1 as (v2 & _ & A1).
  apply rbind_inv in A1 as (l & El & A1). apply rbind_inv in A1 as (mm' & Em & A1). apply rbind_inv in A1 as (rem & _ & A1).
  apply rbind_inv in A1 as (v3 & _ & A1). injection A1 as -> _. exists l, mm. split; [exact Eob|]. cbv zeta. split; [exact El|]. split; [exact Em|].
  apply bind_inv in A as (v4 & s3 & B & A). unfold save_ticks in B. apply mmod_inv in B as ->.
  apply bind_inv in A as (od & s3 & B & A). apply mlift_inv in B as [-> _].
  apply bind_inv in A as (v5 & s3 & B & A). unfold subtract_directional_liquidity in B. rewrite bind_read in B.
  apply bind_inv in A as (v6 & s4 & C & A). apply mmod_inv in C as ->. apply mret_inv in A as [-> _].
  assert (Es : s_ticks s3 = foldl (fun m p => <[p.1 := p.2]> m) (s_ticks (w_st w)) (m_upd mm)).
  { apply bind_inv in B as (v7 & s5 & D & B). apply mlift_inv in D as [-> _]. apply mmod_inv in B as ->. reflexivity. }
  apply bind_inv in X as (v8 & s5 & D & X). apply mlift_inv in D as [-> _]. cbv zeta in X. apply mret_inv in X as [-> _]. exact Es.
Qed.
Lemma set_get ts m v : get_values (set_values ts m v) m = v.
Proof. destruct m; reflexivity. Qed.
Lemma set_set ts m v v' : set_values (set_values ts m v) m v' = set_values ts m v'.
Proof. destruct m; reflexivity. Qed.
#[local] Instance cell_eq_dec : EqDecision cell.
Proof. intros x y. unfold Decision. repeat decide equality. Defined.
(** A swap cannot do without any of the known ticks between the tick pointer and the ticks it takes from: even when all that
    is known about the other books is which ticks they know, the outcome depends on each of them, empty or not. *)
Theorem C69_swap_scans :
  forall e w sender tin out mn fee target m w1 r (cells : list cell), out = deposit_denom (w_st w) m ->
  step e w (swap_call sender tin out mn fee target) = (w1, Done r) ->
  depends_on_given_ticks (fun x => x ∈ cells) e w (swap_call sender tin out mn fee target) ->
  forall u t ob, tick_liquidity (w_st w1) u m <> tick_liquidity (w_st w) u m ->
  is_Some (s_ticks (w_st w) !! t) -> t = u \/ better_tick m t u ->
  s_orderbook (w_st w) = Some ob -> match m with Ask => ob_next_ask ob <= t | Bid => t <= ob_next_bid ob end ->
  CTick t ∈ cells.
Proof.
  intros e w sender tin out mn fee target m w1 r cells Hout E Hdep u t ob Hu [ts Ets] Htu Eob Hptr.
  destruct (decide (CTick t ∈ cells)) as [Hin|Hni]; [exact Hin|exfalso].
  destruct (swap_raw _ _ _ _ _ _ _ _ _ _ _ E Hout) as (ob1 & l & mm & Eob1 & El & Em & Es1). rewrite Eob in Eob1. injection Eob1 as <-.
  set (T := s_ticks (w_st w)) in *. set (bound := unwrap_or target _) in *. cbv zeta in Es1.
  assert (Hch : s_ticks (w_st w1) !! u <> T !! u).
  { intros C. apply Hu. unfold tick_liquidity. unfold T in C. rewrite C. reflexivity. }
  destruct (market_ticks_spec _ _ _ _ _ El) as (Hord & Hl & _).
  destruct (loop_upd _ _ _ _ _ Em) as (ext & Eext & Kext). cbn [m_upd app] in Eext.
  assert (Huk : u ∈ map fst (m_upd mm)).
  { destruct (decide (u ∈ map fst (m_upd mm))) as [H|H]; [exact H|]. exfalso. apply Hch. rewrite Es1. apply fold_out, H. }
  assert (Hul : u ∈ l) by (apply Kext; rewrite <- Eext; exact Huk).
  assert (Htl : t ∈ l).
  { apply Hl. split; [exists ts; exact Ets|]. apply Hl in Hul as [_ Hr]. unfold swap_range, better_tick in *. destruct m; cbn [opposite] in *; lia. }
  apply elem_of_list_split in Htl as (l1 & l2 & ->).
  pose proof (ordered_nodup _ _ Hord) as Hnd. apply NoDup_app in Hnd as (_ & Hd12 & Hnd2). apply NoDup_cons in Hnd2 as [Ht2 _].
  assert (Ht1 : t ∉ l1) by (intros C; apply (Hd12 t C); constructor).
  assert (Hu1 : u ∉ l1).
  { intros C. assert (B : better (opposite m) u t).
    { clear -Hord C. induction l1 as [|a l1 IH]; [inversion C|]. cbn [app] in Hord. inversion Hord as [|? ? Hs Ha]; subst.
      apply elem_of_cons in C as [->|C]; [|auto]. rewrite Forall_forall in Ha. apply Ha, elem_of_app. right. constructor. }
    unfold better_tick in Htu. destruct m; cbn in B, Htu; lia. }
  assert (Hu2 : u = t \/ u ∈ l2).
  { apply elem_of_app in Hul as [C|C]; [contradiction|]. apply elem_of_cons in C. exact C. }
  destruct (loop_app _ _ _ _ _ _ Em) as [(e1 & E1 & K1)|(m1 & e1 & Hm1 & E1 & K1 & F)].
  { cbn [m_upd app] in E1. rewrite E1 in Huk. apply K1 in Huk. contradiction. }
  cbn [m_upd app] in E1. cbn [market_loop] in Hm1. apply rbind_inv in Hm1 as ([b m2] & Et & Hm2). cbn [fst snd] in Hm2.
  destruct (tick_upd _ _ _ _ _ _ Et) as (ts0 & Ets0 & Hcase). rewrite Ets in Ets0. injection Ets0 as <-. rewrite opp_opp in Hcase. cbv zeta in Hcase.
  (* the other book *)
  assert (Other : forall ts', let s' := set_ticks (<[t := ts']> T) (w_st w) in
    exists w1' mm', step e (mkWorld (w_self w) s' (w_bal w)) (swap_call sender tin out mn fee target) = (w1', Done r) /\
      same_effect (w_st w) s' (w_st w1) (w_st w1') /\
      market_loop (opposite m) (<[t := ts']> T) (t :: l2) m1 = Ok mm' /\
      s_ticks (w_st w1') = foldl (fun m p => <[p.1 := p.2]> m) (<[t := ts']> T) (m_upd mm')).
  { intros ts' s'. destruct (Hdep s') as (O & _ & Ef).
    - intros x. change (is_Some (<[t := ts']> T !! x) <-> is_Some (T !! x)). destruct (decide (t = x)) as [<-|Hne].
      + rewrite lookup_insert, Ets. split; eauto.
      + rewrite lookup_insert_ne by exact Hne. reflexivity.
    - intros c Hc. destruct c; try reflexivity. change (<[t := ts']> T !! t0 = T !! t0). apply lookup_insert_ne. intros <-. contradiction.
    - destruct (step e (mkWorld (w_self w) s' (w_bal w)) (swap_call sender tin out mn fee target)) as [w1' o'] eqn:E'.
      rewrite E in O, Ef. cbn [snd fst] in O, Ef. subst o'. exists w1'.
      assert (Hout' : out = deposit_denom (w_st (mkWorld (w_self w) s' (w_bal w))) m) by exact Hout.
      destruct (swap_raw _ _ _ _ _ _ _ _ _ _ _ E' Hout') as (ob2 & l' & mm' & Eob2 & El' & Em' & Es').
      assert (ob2 = ob) as -> by (cbn [w_st] in Eob2; change (s_orderbook (w_st w) = Some ob2) in Eob2; congruence).
      cbv zeta in Es', El', Em'. fold bound in El'. change (s_ticks (w_st (mkWorld (w_self w) s' (w_bal w)))) with (<[t := ts']> T) in *.
      assert (El2 : market_ticks ob (opposite m) bound (<[t := ts']> T) = Ok (l1 ++ t :: l2)).
      { rewrite <- El. apply ticks_ext. intros x _. destruct (decide (t = x)) as [<-|Hne].
        - rewrite lookup_insert, Ets. split; eauto.
        - rewrite lookup_insert_ne by exact Hne. reflexivity. }
      rewrite El2 in El'. injection El' as <-. exists mm'. split; [reflexivity|]. split; [exact Ef|]. split; [|exact Es'].
      rewrite <- (F (<[t := ts']> T) (t :: l2)); [exact Em'|]. intros x Hx. apply lookup_insert_ne. intros <-. contradiction. }
  assert (K2 : forall T0 m0 r0, market_loop (opposite m) T0 l2 m0 = Ok r0 -> exists e2, m_upd r0 = m_upd m0 ++ e2 /\ t ∉ map fst e2).
  { intros T0 m0 r0 H0. destruct (loop_upd _ _ _ _ _ H0) as (e2 & E2 & K2). exists e2. split; [exact E2|]. intros C. apply Ht2, K2, C. }
  assert (Ht1' : t ∉ map fst e1) by (intros C; apply Ht1, K1, C).
  destruct Hcase as [(Hz & -> & ->)|[(Hz & -> & Eu)|(Hz & -> & fill & Hf & Eu)]].
  - (* empty here *)
    destruct (K2 _ _ _ Hm2) as (e2 & E2 & N2).
    assert (T1 : s_ticks (w_st w1) !! t = Some ts).
    { rewrite Es1, E2, E1. rewrite fold_out; [exact Ets|]. rewrite map_app. intros C. apply elem_of_app in C as [C|C]; contradiction. }
    assert (Hne : u <> t) by (intros ->; apply Hch; rewrite T1; symmetry; exact Ets).
    set (tv := get_values ts m) in *. set (ts' := set_values ts m (mkTV DEC (tv_ctt tv) (tv_etas tv) (tv_crc tv) (tv_last tv))).
    destruct (Other ts') as (w1' & mm' & _ & Ef & Hl' & Es'). cbn [market_loop] in Hl'. apply rbind_inv in Hl' as ([b' m2'] & Et' & Hl'). cbn [fst snd] in Hl'.
    destruct (tick_upd _ _ _ _ _ _ Et') as (ts0 & Ets0 & Hcase). rewrite lookup_insert in Ets0. injection Ets0 as <-. rewrite opp_opp in Hcase. cbv zeta in Hcase.
    unfold ts' in Hcase. rewrite set_get in Hcase. cbn [tv_tal tv_ctt tv_etas tv_crc tv_last] in Hcase.
    destruct Hcase as [(Hz' & _)|[(_ & -> & Eu)|(_ & -> & fill & Hf & Eu)]]; [discriminate| |].
    + injection Hl' as <-. assert (Tu : s_ticks (w_st w1') !! u = T !! u).
      { rewrite Es', Eu, E1, fold_out; [apply lookup_insert_ne; congruence|]. intros C. apply Hu1, K1, C. }
      destruct (Ef (CTick u)) as [C|[C _]]; cbn in C; [apply Hch; rewrite <- C; exact Tu|contradiction].
    + destruct (K2 _ _ _ Hl') as (e3 & E3 & N3).
      assert (Tt : s_ticks (w_st w1') !! t = Some (set_values ts m (mkTV (DEC - fill) (tv_ctt tv) (tv_etas tv + fill) (tv_crc tv) (tv_last tv)))).
      { rewrite Es', E3, Eu, <- app_assoc. cbn [app]. rewrite set_set. apply fold_last, N3. }
      destruct (Ef (CTick t)) as [C|[_ C]]; cbn in C; rewrite Tt in C.
      * rewrite T1 in C. injection C as C. apply (f_equal (fun x => tv_etas (get_values x m))) in C. rewrite set_get in C. cbn [tv_etas] in C. fold tv in C. lia.
      * rewrite lookup_insert in C. injection C as C. apply (f_equal (fun x => tv_etas (get_values x m))) in C. unfold ts' in C. rewrite !set_get in C. cbn [tv_etas] in C. lia.
  - (* stopped here *)
    injection Hm2 as <-. rewrite Eu, E1 in Huk. apply K1 in Huk. contradiction.
  - (* filled here *)
    destruct (K2 _ _ _ Hm2) as (e2 & E2 & N2). set (tv := get_values ts m) in *.
    assert (T1 : s_ticks (w_st w1) !! t = Some (set_values ts m (mkTV (tv_tal tv - fill) (tv_ctt tv) (tv_etas tv + fill) (tv_crc tv) (tv_last tv)))).
    { rewrite Es1, E2, Eu, <- app_assoc. cbn [app]. apply fold_last, N2. }
    set (ts' := set_values ts m (mkTV 0 (tv_ctt tv) (tv_etas tv) (tv_crc tv) (tv_last tv))).
    destruct (Other ts') as (w1' & mm' & _ & Ef & Hl' & Es'). cbn [market_loop] in Hl'. apply rbind_inv in Hl' as ([b' m2'] & Et' & Hl'). cbn [fst snd] in Hl'.
    destruct (tick_upd _ _ _ _ _ _ Et') as (ts0 & Ets0 & Hcase). rewrite lookup_insert in Ets0. injection Ets0 as <-. rewrite opp_opp in Hcase. cbv zeta in Hcase.
    unfold ts' in Hcase. rewrite set_get in Hcase. cbn [tv_tal tv_ctt tv_etas tv_crc tv_last] in Hcase.
    destruct Hcase as [(_ & -> & ->)|[(C & _)|(C & _)]]; [|congruence|congruence].
    destruct (K2 _ _ _ Hl') as (e3 & E3 & N3).
    assert (Tt : s_ticks (w_st w1') !! t = Some ts').
    { rewrite Es', E3, E1, fold_out; [apply lookup_insert|]. rewrite map_app. intros C. apply elem_of_app in C as [C|C]; contradiction. }
    destruct (Ef (CTick t)) as [C|[C _]]; cbn in C.
    + rewrite Tt, T1 in C. injection C as C. apply (f_equal (fun x => tv_etas (get_values x m))) in C. unfold ts' in C. rewrite !set_get in C. cbn [tv_etas] in C. lia.
    + rewrite T1 in C. change (s_ticks (w_st w)) with T in C. rewrite Ets in C. injection C as C.
      apply (f_equal (fun x => tv_etas (get_values x m))) in C. rewrite set_get in C. cbn [tv_etas] in C. fold tv in C. lia.
Qed.
Print Assumptions C69_swap_scans.
