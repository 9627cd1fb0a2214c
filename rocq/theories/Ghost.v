(** * Ghost: the order queue of one tick and direction, as seen by the proofs.

    A side is the sequence of everything ever placed at one tick and direction, in order
    of placement: live orders, cancelled ranges and claimed ranges.  All amounts are whole
    units.  [g_F] is the total amount ever filled, [g_crc] the realised cancels, [g_last]
    the fill position of the last synchronisation. *)
From Verif Require Import Base Dec Types State Sumtree TreeDefs Exec SumtreeProofs SumtreeRebalance SumtreeInsert PrefixSum SumtreeRoot.

Inductive item : Type :=
| Live (id q : Z)
| Can (q : Z)
| Gap (q : Z).
Definition qn (it : item) : Z := match it with Live _ q => q | Can _ => 0 | Gap q => q end.
Definition qc (it : item) : Z := match it with Can q => q | _ => 0 end.
Fixpoint nfs (l : list item) : Z := match l with [] => 0 | it :: l => qn it + nfs l end.
Fixpoint cns (l : list item) : Z := match l with [] => 0 | it :: l => qc it + cns l end.

Record side : Type := mkSide { g_items : list item; g_F : Z; g_crc : Z; g_last : Z }.
Definition side0 : side := mkSide [] 0 0 0.
Definition g_open (g : side) : Z := nfs (g_items g) - g_F g.

(** [P n c it] for every item, [n] and [c] being the non-cancelled and cancelled amounts before it. *)
Fixpoint all_at (P : Z -> Z -> item -> Prop) (n c : Z) (l : list item) : Prop :=
  match l with
  | [] => True
  | it :: l => P n c it /\ all_at P (n + qn it) (c + qc it) l
  end.

(** Cancelled ranges (start, length). *)
Fixpoint cans (n c : Z) (l : list item) : list (Z * Z) :=
  match l with
  | [] => []
  | Can q :: l => (n + c, q) :: cans n (c + q) l
  | it :: l => cans (n + qn it) c l
  end.
(** Live orders: (id, amount before it not cancelled, amount before it cancelled, quantity). *)
Fixpoint lives (n c : Z) (l : list item) : list (Z * (Z * Z * Z)) :=
  match l with
  | [] => []
  | Live id q :: l => (id, (n, c, q)) :: lives (n + q) c l
  | it :: l => lives (n + qn it) (c + qc it) l
  end.
Definition g_lives (g : side) := lives 0 0 (g_items g).
Definition g_cans (g : side) := cans 0 0 (g_items g).

(** First-in-first-out filled part of an order that starts after [n] units. *)
Definition fifo (F n q : Z) : Z := Z.max 0 (Z.min (F - n) q).

Definition item_ok (F crc last n c : Z) (it : item) : Prop :=
  match it with
  | Live _ q => 0 < q
  | Can q => 0 < q /\ (c < crc -> c + q <= crc /\ n <= F) /\ (last = F + crc -> crc <= c -> F <= n)
  | Gap q => 0 < q /\ n + q <= F
  end.
(** The fill position accounts for every cancel that matters. *)
Definition sync_at (F crc n c : Z) (it : item) : Prop :=
  match it with Can _ => crc <= c -> F <= n | _ => True end.

Record side_ok (g : side) : Prop := {
  so_items : all_at (item_ok (g_F g) (g_crc g) (g_last g)) 0 0 (g_items g);
  so_F : 0 <= g_F g <= nfs (g_items g);
  so_crc : 0 <= g_crc g <= cns (g_items g);
  so_last : 0 <= g_last g <= g_F g + g_crc g;
  so_max : (nfs (g_items g) + cns (g_items g)) * DEC <= U256_MAX;
  so_ids : StronglySorted Z.lt (map fst (g_lives g))
}.
Definition synced (g : side) : Prop := all_at (sync_at (g_F g) (g_crc g)) 0 0 (g_items g).

(** ** Lists *)
Lemma nfs_app l1 l2 : nfs (l1 ++ l2) = nfs l1 + nfs l2.
Proof. induction l1; cbn; lia. Qed.
Lemma cns_app l1 l2 : cns (l1 ++ l2) = cns l1 + cns l2.
Proof. induction l1; cbn; lia. Qed.
Lemma all_at_app P n c l1 l2 :
  all_at P n c (l1 ++ l2) <-> all_at P n c l1 /\ all_at P (n + nfs l1) (c + cns l1) l2.
Proof.
  revert n c. induction l1 as [|it l1 IH]; intros n c; cbn.
  - rewrite !Z.add_0_r. tauto.
  - rewrite IH. rewrite !Z.add_assoc. tauto.
Qed.
Lemma cans_app n c l1 l2 : cans n c (l1 ++ l2) = cans n c l1 ++ cans (n + nfs l1) (c + cns l1) l2.
Proof.
  revert n c. induction l1 as [|[id q|q|q] l1 IH]; intros n c; cbn.
  - rewrite !Z.add_0_r. reflexivity.
  - rewrite IH. f_equal. f_equal; lia.
  - rewrite IH. do 2 f_equal. f_equal; lia.
  - rewrite IH. f_equal. f_equal; lia.
Qed.
Lemma lives_app n c l1 l2 : lives n c (l1 ++ l2) = lives n c l1 ++ lives (n + nfs l1) (c + cns l1) l2.
Proof.
  revert n c. induction l1 as [|[id q|q|q] l1 IH]; intros n c; cbn.
  - rewrite !Z.add_0_r. reflexivity.
  - rewrite IH. do 2 f_equal. f_equal; lia.
  - rewrite IH. f_equal. f_equal; lia.
  - rewrite IH. f_equal. f_equal; lia.
Qed.
Lemma lives_ids n c n' c' l : map fst (lives n c l) = map fst (lives n' c' l).
Proof.
  revert n c n' c'. induction l as [|[id q|q|q] l IH]; intros; cbn; [reflexivity|f_equal; apply IH|apply IH|apply IH].
Qed.
Lemma lives_split n0 c0 l id n c q :
  (id, (n, c, q)) ∈ lives n0 c0 l <->
  exists l1 l2, l = l1 ++ Live id q :: l2 /\ n = n0 + nfs l1 /\ c = c0 + cns l1.
Proof.
  revert n0 c0. induction l as [|it l IH]; intros n0 c0.
  - cbn. split; [intros H; inversion H|]. intros ([|] & l2 & E & _); discriminate.
  - assert (Hskip : forall n1 c1, n1 = n0 + qn it -> c1 = c0 + qc it ->
      (id, (n, c, q)) ∈ lives n1 c1 l ->
      exists l1 l2, it :: l = l1 ++ Live id q :: l2 /\ n = n0 + nfs l1 /\ c = c0 + cns l1).
    { intros n1 c1 -> -> H. apply IH in H as (l1 & l2 & -> & -> & ->).
      exists (it :: l1), l2. cbn. split; [reflexivity|lia]. }
    assert (Hback : forall n1 c1, n1 = n0 + qn it -> c1 = c0 + qc it ->
      (exists l1 l2, it :: l = l1 ++ Live id q :: l2 /\ n = n0 + nfs l1 /\ c = c0 + cns l1) ->
      (it = Live id q /\ n = n0 /\ c = c0) \/ (id, (n, c, q)) ∈ lives n1 c1 l).
    { intros n1 c1 -> -> (l1 & l2 & E & Hn & Hc). destruct l1 as [|x l1]; cbn in *.
      - left. injection E as -> ->. split; [reflexivity|lia].
      - right. injection E as -> ->. apply IH. exists l1, l2. split; [reflexivity|lia]. }
    destruct it as [id' q'|q'|q']; cbn [lives].
    + rewrite elem_of_cons. split.
      * intros [[= -> -> -> ->]|H]; [exists [], l; cbn; split; [reflexivity|lia]|].
        apply (Hskip (n0 + q') c0); cbn; auto; lia.
      * intros H. destruct (Hback (n0 + q') c0 ltac:(cbn; lia) ltac:(cbn; lia) H) as [([= <- <-] & -> & ->)|H']; auto.
    + split.
      * apply Hskip; cbn; lia.
      * intros H. destruct (Hback (n0 + 0) (c0 + q') ltac:(cbn; lia) ltac:(cbn; lia) H) as [([=] & _)|H']; auto.
    + split.
      * apply Hskip; cbn; lia.
      * intros H. destruct (Hback (n0 + q') (c0 + 0) ltac:(cbn; lia) ltac:(cbn; lia) H) as [([=] & _)|H']; auto.
Qed.

Lemma all_at_impl (P Q : Z -> Z -> item -> Prop) n c l :
  (forall n' c' it, P n' c' it -> Q n' c' it) -> all_at P n c l -> all_at Q n c l.
Proof. intros H. revert n c. induction l; cbn; intros n c; [auto|]. intros [? ?]. auto. Qed.
Lemma all_at_and (P Q : Z -> Z -> item -> Prop) n c l :
  all_at P n c l -> all_at Q n c l -> all_at (fun n c it => P n c it /\ Q n c it) n c l.
Proof. revert n c. induction l; cbn; intros n c; [auto|]. intros [? ?] [? ?]. auto. Qed.

Definition item_pos (n c : Z) (it : item) : Prop := match it with Live _ q | Can q | Gap q => 0 < q end.
Lemma item_ok_pos F crc last n c it : item_ok F crc last n c it -> item_pos n c it.
Proof. destruct it; cbn; tauto. Qed.
Lemma pos_nonneg n c l : all_at item_pos n c l -> 0 <= nfs l /\ 0 <= cns l.
Proof.
  revert n c. induction l as [|it l IH]; intros n c; cbn; [lia|]. intros [Hp Hl].
  specialize (IH _ _ Hl). destruct it; cbn in *; lia.
Qed.

(** Items come at or after the start position. *)
Lemma all_at_ge (P : Z -> Z -> item -> Prop) n c l :
  all_at item_pos n c l -> all_at P n c l -> all_at (fun n' c' it => n <= n' /\ c <= c' /\ P n' c' it) n c l.
Proof.
  assert (H : forall n0 c0, n0 <= n -> c0 <= c -> all_at item_pos n c l -> all_at P n c l ->
     all_at (fun n' c' it => n0 <= n' /\ c0 <= c' /\ P n' c' it) n c l).
  { revert n c. induction l as [|it l IH]; intros n c n0 c0 Hn Hc; cbn; [auto|].
    intros [Hp Hl] [HP HPl]. split; [auto|]. apply IH; try assumption; destruct it; cbn in *; lia. }
  apply H; lia.
Qed.

(** ** Cancelled ranges as segments *)
Lemma lsum_cans n c l : lsum (cans n c l) = cns l.
Proof. revert n c. induction l as [|[id q|q|q] l IH]; intros; cbn; rewrite ?IH; lia. Qed.

Lemma cans_bounds n c l :
  all_at item_pos n c l ->
  forall p, p ∈ cans n c l -> n + c <= p.1 /\ 0 < p.2 /\ p.1 + p.2 <= n + c + nfs l + cns l.
Proof.
  revert n c. induction l as [|it l IH]; intros n c; cbn; [intros _ p Hp; inversion Hp|].
  intros [Hp Hl] p Hin. pose proof (pos_nonneg _ _ _ Hl).
  destruct it as [id q|q|q]; cbn in *.
  - rewrite Z.add_0_r in Hl. specialize (IH _ _ Hl p Hin). lia.
  - rewrite Z.add_0_r in Hl. apply elem_of_cons in Hin as [->|Hin]; [cbn; lia|]. specialize (IH _ _ Hl p Hin). lia.
  - rewrite Z.add_0_r in Hl. specialize (IH _ _ Hl p Hin). lia.
Qed.

Lemma cans_segs n c l : 0 <= n -> 0 <= c -> all_at item_pos n c l -> segs_ok (cans n c l).
Proof.
  revert n c. induction l as [|it l IH]; intros n c Hn Hc; cbn; [intros _; apply segs_ok_nil|].
  intros [Hp Hl]. destruct it as [id q|q|q]; cbn in *; rewrite Z.add_0_r in Hl.
  - apply IH; [lia|lia|exact Hl].
  - change ((n + c, q) :: cans n (c + q) l) with ([(n + c, q)] ++ cans n (c + q) l).
    apply segs_ok_app. split; [apply segs_ok_singleton; lia|].
    split; [apply IH; [lia|lia|exact Hl]|].
    intros a b Ha Hb. apply elem_of_list_singleton in Ha as ->.
    pose proof (cans_bounds _ _ _ Hl _ Hb). unfold seg_before. cbn. lia.
  - apply IH; [lia|lia|exact Hl].
Qed.

(** Realisation over items: a cancelled range is realised when everything before it is filled. *)
Fixpoint realc (F n c : Z) (l : list item) : Z :=
  match l with
  | [] => c
  | Can q :: l => if n <=? F then realc F n (c + q) l else c
  | it :: l => realc F (n + qn it) c l
  end.
Lemma real_realc F n c l : real F c (cans n c l) = realc F n c l.
Proof.
  revert n c. induction l as [|[id q|q|q] l IH]; intros n c; cbn; [reflexivity|apply IH| |apply IH].
  destruct (Z.leb_spec (n + c) (F + c)); destruct (Z.leb_spec n F); try lia; apply IH.
Qed.
Lemma okprev_cans F crc n c l last :
  all_at (item_ok F crc last) n c l -> okprev F crc c (cans n c l).
Proof.
  revert n c. induction l as [|[id q|q|q] l IH]; intros n c; cbn; [auto| | |]; rewrite ?Z.add_0_r.
  - intros [_ H]. auto.
  - intros [(Hq & H1 & _) H]. split; [|auto]. intros Hlt. specialize (H1 Hlt). lia.
  - intros [_ H]. auto.
Qed.

Lemma realc_bounds F n c l : all_at item_pos n c l -> c <= realc F n c l <= c + cns l.
Proof.
  revert n c. induction l as [|[id q|q|q] l IH]; intros n c; cbn; [lia| | |]; rewrite ?Z.add_0_r; intros [Hp Hl];
    specialize (IH _ _ Hl); try lia.
  pose proof (pos_nonneg _ _ _ Hl). destruct (n <=? F); lia.
Qed.
Lemma realc_ge F n c l crc last :
  all_at (item_ok F crc last) n c l -> crc <= c + cns l -> crc <= realc F n c l.
Proof.
  revert n c. induction l as [|[id q|q|q] l IH]; intros n c; cbn; [lia| | |]; rewrite ?Z.add_0_r.
  - intros [_ H] Hc. apply IH; [exact H|lia].
  - intros [(Hq & H1 & _) H] Hc.
    pose proof (all_at_impl _ _ _ _ _ (item_ok_pos F crc last) H) as Hpos.
    destruct (Z.leb_spec n F).
    + apply IH; [exact H|lia].
    + destruct (Z.lt_ge_cases c crc) as [Hlt|]; [specialize (H1 Hlt); lia|lia].
  - intros [_ H] Hc. apply IH; [exact H|lia].
Qed.

(** After realisation every item is in order. *)
Lemma realc_ok F n c l R last crc0 last0 :
  all_at (item_ok F crc0 last0) n c l -> realc F n c l = R ->
  all_at (item_ok F R last) n c l /\ all_at (sync_at F R) n c l.
Proof.
  intros H0. assert (Hpos := all_at_impl _ _ _ _ _ (item_ok_pos F crc0 last0) H0). revert n c H0 Hpos.
  induction l as [|[id q|q|q] l IH]; intros n c; cbn; [auto| | |]; rewrite ?Z.add_0_r.
  - intros [Hq H] [_ Hpos] HR. destruct (IH _ _ H Hpos HR). auto.
  - intros [(Hq & _ & _) H] [_ Hpos] HR. pose proof (realc_bounds F _ _ _ Hpos) as Hb.
    destruct (Z.leb_spec n F) as [Hle|Hgt].
    + destruct (IH _ _ H Hpos HR) as [A B]. split; (split; [|assumption]).
      * split; [exact Hq|]. split; lia.
      * lia.
    + assert (Hrest : all_at (item_ok F R last) n (c + q) l /\ all_at (sync_at F R) n (c + q) l).
      { clear IH. subst R. pose proof (all_at_ge _ _ _ _ Hpos H) as Hge.
        split; eapply all_at_impl; try exact Hge; cbn; intros n' c' it (Hn' & Hc' & Hok); destruct it as [|qq|qq];
          cbn in *; try exact I; try tauto; try lia. }
      destruct Hrest as [A B]. split; (split; [|assumption]).
      * split; [exact Hq|]. split; lia.
      * lia.
  - intros [Hq H] [_ Hpos] HR. destruct (IH _ _ H Hpos HR). auto.
Qed.

(** ** The fill read off the fill position is the first-in-first-out fill. *)
Lemma fill_position g id n c q :
  side_ok g -> synced g -> (id, (n, c, q)) ∈ g_lives g ->
  Z.max 0 (Z.min (g_F g + g_crc g - (n + c)) q) = fifo (g_F g) n q /\ 0 < q /\ 0 <= n /\ 0 <= c /\
  n + q <= nfs (g_items g) /\
  (g_F g <= n -> g_crc g <= c) /\
  n + c + q <= nfs (g_items g) + cns (g_items g).
Proof.
  intros [Hit HF Hcrc Hlast _ _] Hsy Hin. unfold synced in Hsy. unfold g_lives in Hin.
  apply lives_split in Hin as (l1 & l2 & El & -> & ->). rewrite El in *. cbn [Z.add].
  set (F := g_F g) in *. set (crc := g_crc g) in *.
  apply all_at_app in Hit as [H1 [Hq H2]]. apply all_at_app in Hsy as [S1 [_ S2]].
  rewrite nfs_app, cns_app in *. cbn [nfs cns qn qc item_ok Z.add] in *. rewrite ?Z.add_0_l in *.
  pose proof (all_at_impl _ _ _ _ _ (item_ok_pos F crc (g_last g)) H1) as P1.
  pose proof (all_at_impl _ _ _ _ _ (item_ok_pos F crc (g_last g)) H2) as P2.
  pose proof (pos_nonneg _ _ _ P1). pose proof (pos_nonneg _ _ _ P2).
  (* cancels after *)
  assert (A : cns l1 < crc -> nfs l1 + q <= F).
  { intros Hlt. clear S1 S2 H1 P1. rewrite Z.add_0_r in *. assert (Hc : crc <= cns l1 + cns l2) by lia.
    revert H2 P2 Hc Hlt. generalize (nfs l1 + q) as n. generalize (cns l1) as c. clear.
    induction l2 as [|it l2 IH]; intros c n; cbn; [lia|]. intros [Hi H2] [Hp P2] Hc Hlt.
    destruct it as [id' q'|q'|q']; cbn in *; rewrite ?Z.add_0_r in *.
    - specialize (IH _ _ H2 P2 ltac:(lia) Hlt). lia.
    - destruct Hi as (_ & Hi & _). specialize (Hi Hlt). lia.
    - specialize (IH _ _ H2 P2 ltac:(lia) Hlt). lia. }
  (* cancels before *)
  assert (B : crc < cns l1 -> F <= nfs l1).
  { intros Hlt. assert (Hge : forall n c, 0 <= c -> c <= crc -> crc < c + cns l1 ->
       all_at item_pos n c l1 -> all_at (item_ok F crc (g_last g)) n c l1 -> all_at (sync_at F crc) n c l1 -> F <= n + nfs l1).
    { clear. induction l1 as [|it l1 IH]; intros n c Hc0 Hc1 Hlt; cbn in *; [lia|].
      intros [Hp P1] [Hi H1] [Hs S1]. pose proof (pos_nonneg _ _ _ P1).
      destruct it as [id' q'|q'|q']; cbn in *; rewrite ?Z.add_0_r in *.
      - specialize (IH _ _ Hc0 Hc1 ltac:(lia) P1 H1 S1). lia.
      - destruct Hi as (_ & Hi & _). destruct (Z.lt_ge_cases c crc) as [Hl|Hg].
        + specialize (Hi Hl). specialize (IH n (c + q') ltac:(lia) ltac:(lia) ltac:(lia) P1 H1 S1). lia.
        + specialize (Hs Hg). lia.
      - specialize (IH _ _ Hc0 Hc1 ltac:(lia) P1 H1 S1). lia. }
    specialize (Hge 0 0 ltac:(lia) ltac:(lia) ltac:(lia) P1 H1 S1). lia. }
  repeat split; try lia. unfold fifo.
  destruct (Z.lt_trichotomy (cns l1) crc) as [Hlt|[Heq|Hgt]]; [specialize (A Hlt); lia|lia|specialize (B Hgt); lia].
Qed.

(** ** Operations *)
Definition g_place (g : side) (id q : Z) : side :=
  mkSide (g_items g ++ [Live id q]) (g_F g) (g_crc g) (g_last g).
Definition g_fill (g : side) (x : Z) : side := mkSide (g_items g) (g_F g + x) (g_crc g) (g_last g).
Definition g_sync (g : side) : side :=
  if g_last g =? g_F g + g_crc g then g
  else mkSide (g_items g) (g_F g) (realc (g_F g) 0 0 (g_items g)) (g_F g + g_crc g).
Definition replace_live (id : Z) (f : Z -> list item) (l : list item) : list item :=
  flat_map (fun it => match it with
                      | Live id' q => if id' =? id then f q else [it]
                      | _ => [it]
                      end) l.
Definition g_cancel (g : side) (id : Z) : side :=
  mkSide (replace_live id (fun q => [Can q]) (g_items g)) (g_F g) (g_crc g) (g_last g).
Definition g_claim (g : side) (id f : Z) : side :=
  mkSide (replace_live id (fun q => Gap f :: (if q - f =? 0 then [] else [Live id (q - f)])) (g_items g))
         (g_F g) (g_crc g) (g_last g).

Lemma side_ok0 : side_ok side0.
Proof. split; cbn; try lia; try constructor. vm_compute. discriminate. Qed.

Lemma ids_app n c l1 l2 :
  map fst (lives n c (l1 ++ l2)) = map fst (lives 0 0 l1) ++ map fst (lives 0 0 l2).
Proof. rewrite lives_app, map_app. f_equal; apply lives_ids. Qed.

Lemma ids_live n c id q l : map fst (lives n c (Live id q :: l)) = id :: map fst (lives 0 0 l).
Proof. cbn [lives map fst]. f_equal. apply lives_ids. Qed.
Lemma ids_can n c q l : map fst (lives n c (Can q :: l)) = map fst (lives 0 0 l).
Proof. cbn [lives map fst]. apply lives_ids. Qed.
Lemma ids_gap n c q l : map fst (lives n c (Gap q :: l)) = map fst (lives 0 0 l).
Proof. cbn [lives map fst]. apply lives_ids. Qed.
Lemma sorted_app (l1 l2 : list Z) :
  StronglySorted Z.lt (l1 ++ l2) <->
  StronglySorted Z.lt l1 /\ StronglySorted Z.lt l2 /\ (forall x y, x ∈ l1 -> y ∈ l2 -> x < y).
Proof.
  induction l1 as [|x l1 IH]; cbn.
  - split; [intros H; repeat split; [constructor|exact H|]|tauto]. intros x y Hx. inversion Hx.
  - split.
    + intros H. apply StronglySorted_inv in H as [H Hx]. apply IH in H as (H1 & H2 & H3).
      apply Forall_app in Hx as [Hx1 Hx2]. rewrite Forall_forall in Hx2.
      split; [constructor; assumption|]. split; [exact H2|].
      intros a b Ha Hb. apply elem_of_cons in Ha as [->|Ha]; auto.
    + intros (H1 & H2 & H3). apply StronglySorted_inv in H1 as [H1 Hx].
      constructor.
      * apply IH. split; [exact H1|]. split; [exact H2|]. intros a b Ha Hb. apply H3; [constructor; exact Ha|exact Hb].
      * apply Forall_app. split; [exact Hx|]. apply Forall_forall. intros b Hb. apply H3; [constructor|exact Hb].
Qed.

Lemma place_ok g id q :
  side_ok g -> 0 < q -> (nfs (g_items g) + cns (g_items g) + q) * DEC <= U256_MAX ->
  (forall id', id' ∈ map fst (g_lives g) -> id' < id) -> side_ok (g_place g id q).
Proof.
  intros [H1 H2 H3 H4 H5 H6] Hq Hmax Hid. unfold g_lives in *. split; cbn [g_place g_items g_F g_crc g_last];
    rewrite ?nfs_app, ?cns_app; cbn [nfs cns qn qc]; try lia.
  - apply all_at_app. split; [exact H1|]. cbn. auto.
  - unfold g_lives. cbn [g_place g_items]. rewrite ids_app. cbn.
    apply sorted_app. split; [exact H6|]. split; [repeat constructor|].
    intros x y Hx Hy. apply elem_of_list_singleton in Hy as ->. auto.
Qed.

Lemma fill_ok g x : side_ok g -> 0 < x <= g_open g -> side_ok (g_fill g x).
Proof.
  unfold g_open. intros [H1 H2 H3 H4 H5 H6] Hx. split; cbn; try lia; try assumption.
  eapply all_at_impl; [|exact H1]. intros n c [id q|q|q]; cbn; [auto| |lia]. intros (A & B & C). repeat split; lia.
Qed.

Lemma sync_ok g : side_ok g -> side_ok (g_sync g) /\ synced (g_sync g).
Proof.
  intros Hok. pose proof Hok as [H1 H2 H3 H4 H5 H6]. unfold g_sync.
  destruct (Z.eqb_spec (g_last g) (g_F g + g_crc g)) as [E|Hne].
  - split; [exact Hok|]. unfold synced. eapply all_at_impl; [|exact H1].
    intros n c [id q|q|q]; cbn; auto. intros (_ & _ & C). auto.
  - pose proof (all_at_impl _ _ _ _ _ (item_ok_pos _ _ _) H1) as Hpos.
    pose proof (realc_bounds (g_F g) 0 0 _ Hpos) as Hb.
    pose proof (realc_ge _ _ _ _ _ _ H1 ltac:(lia)) as Hge.
    destruct (realc_ok _ _ _ _ _ (g_F g + g_crc g) _ _ H1 eq_refl) as [A B].
    split; [|exact B]. split; cbn; try lia; assumption.
Qed.
Lemma sync_items g : g_items (g_sync g) = g_items g.
Proof. unfold g_sync. destruct (_ =? _); reflexivity. Qed.
Lemma sync_F g : g_F (g_sync g) = g_F g.
Proof. unfold g_sync. destruct (_ =? _); reflexivity. Qed.

(** Replacing the live order [id]. *)
Lemma replace_none id f l : id ∉ map fst (lives 0 0 l) -> replace_live id f l = l.
Proof.
  induction l as [|[id' q|q|q] l IH]; cbn; [reflexivity| | |].
  - intros H. rewrite (lives_ids _ _ 0 0) in H. destruct (Z.eqb_spec id' id) as [->|Hne].
    + exfalso. apply H. constructor.
    + cbn. f_equal. apply IH. intros Hin. apply H. constructor. exact Hin.
  - intros H. rewrite (lives_ids _ _ 0 0) in H. f_equal. auto.
  - intros H. rewrite (lives_ids _ _ 0 0) in H. f_equal. auto.
Qed.
Lemma replace_app id f l1 l2 : replace_live id f (l1 ++ l2) = replace_live id f l1 ++ replace_live id f l2.
Proof. unfold replace_live. apply flat_map_app. Qed.
Lemma replace_split id f l1 l2 q :
  StronglySorted Z.lt (map fst (lives 0 0 (l1 ++ Live id q :: l2))) ->
  replace_live id f (l1 ++ Live id q :: l2) = l1 ++ f q ++ l2.
Proof.
  intros H. rewrite ids_app, ids_live in H.
  apply sorted_app in H as (H1 & H2 & H3). apply StronglySorted_inv in H2 as [H2 Hx]. rewrite Forall_forall in Hx.
  rewrite replace_app. rewrite replace_none.
  2:{ intros Hin. specialize (H3 id id Hin ltac:(constructor)). lia. }
  cbn. rewrite Z.eqb_refl. fold (replace_live id f l2). rewrite replace_none; [reflexivity|].
  intros Hin. specialize (Hx id Hin). lia.
Qed.

Lemma cancel_ok g id n c q :
  side_ok g -> synced g -> (id, (n, c, q)) ∈ g_lives g -> g_F g <= n -> side_ok (g_cancel g id).
Proof.
  intros Hok Hsy Hin HFn. destruct (fill_position _ _ _ _ _ Hok Hsy Hin) as (_ & Hq & Hn & Hc & Hnq & Hcc & _).
  specialize (Hcc HFn). pose proof Hok as [H1 H2 H3 H4 H5 H6].
  unfold g_lives in Hin. apply lives_split in Hin as (l1 & l2 & El & -> & ->). rewrite ?Z.add_0_l in *.
  unfold g_lives in H6. unfold g_cancel.
  assert (E : replace_live id (fun q => [Can q]) (g_items g) = l1 ++ [Can q] ++ l2).
  { rewrite El in *. apply replace_split. exact H6. }
  unfold synced in Hsy. rewrite El in *. rewrite nfs_app, cns_app in *. cbn [nfs cns qn qc] in *.
  split; cbn [g_items g_F g_crc g_last]; rewrite ?E; rewrite ?nfs_app, ?cns_app; cbn [nfs cns qn qc app]; try lia.
  - apply all_at_app in H1 as [A [_ B]]. apply all_at_app. split; [exact A|].
    split; [cbn; lia|]. cbn [qn qc Z.add] in *.
    pose proof (all_at_impl _ _ _ _ _ (item_ok_pos _ _ _) B) as PB.
    pose proof (all_at_ge _ _ _ _ PB B) as GB.
    assert (Hsh : forall n0 c0, n0 = 0 + nfs l1 + q -> c0 = 0 + cns l1 + 0 ->
      all_at (item_ok (g_F g) (g_crc g) (g_last g)) (n0 - q) (c0 + q) l2).
    { intros n0 c0 En Ec. rewrite <- En, <- Ec in GB.
      assert (Hn0 : g_F g <= n0 - q) by lia. assert (Hc0 : g_crc g <= c0) by lia.
      clear - GB Hn0 Hc0 Hq.
      assert (HH : forall n c, n0 <= n -> c0 <= c ->
        all_at (fun n' c' it => n0 <= n' /\ c0 <= c' /\ item_ok (g_F g) (g_crc g) (g_last g) n' c' it) n c l2 ->
        all_at (item_ok (g_F g) (g_crc g) (g_last g)) (n - q) (c + q) l2).
      { clear GB. induction l2 as [|it l2 IH]; intros n c Hn Hc; cbn; [auto|].
        intros [(Hn' & Hc' & Hi) Hr]. split.
        - destruct it as [id' q'|q'|q']; cbn in *; [exact Hi| |lia].
          destruct Hi as (Hq' & Hi1 & Hi2). split; [exact Hq'|]. split; lia.
        - replace (n - q + qn it) with (n + qn it - q) by lia. replace (c + q + qc it) with (c + qc it + q) by lia.
          apply IH; [| |exact Hr]; destruct it; cbn in *; lia. }
      apply HH; [lia|lia|exact GB]. }
    specialize (Hsh _ _ eq_refl eq_refl).
    replace (0 + nfs l1 + 0) with (0 + nfs l1 + q - q) by lia.
    replace (0 + cns l1 + q) with (0 + cns l1 + 0 + q) by lia. exact Hsh.
  - unfold g_lives. cbn [g_items]. rewrite ?E. rewrite ids_app, ids_live in H6. rewrite ids_app. cbn [app]. rewrite ids_can.
    apply sorted_app in H6 as (S1 & S2 & S3). apply StronglySorted_inv in S2 as [S2 _].
    apply sorted_app. split; [exact S1|]. split; [exact S2|]. intros x y Hx Hy. apply S3; [exact Hx|constructor; exact Hy].
Qed.

Lemma claim_ok g id n c q :
  side_ok g -> (id, (n, c, q)) ∈ g_lives g -> 0 < fifo (g_F g) n q ->
  side_ok (g_claim g id (fifo (g_F g) n q)).
Proof.
  intros Hok Hin Hf. pose proof Hok as [H1 H2 H3 H4 H5 H6].
  unfold g_lives in Hin. apply lives_split in Hin as (l1 & l2 & El & -> & ->). rewrite ?Z.add_0_l in *.
  unfold g_lives in H6. set (f := fifo (g_F g) (nfs l1) q) in *. unfold fifo in f.
  unfold g_claim.
  assert (E : replace_live id (fun q => Gap f :: (if q - f =? 0 then [] else [Live id (q - f)])) (g_items g)
              = l1 ++ (Gap f :: (if q - f =? 0 then [] else [Live id (q - f)])) ++ l2).
  { rewrite El in *. rewrite replace_split by exact H6. reflexivity. }
  rewrite El in *. rewrite nfs_app, cns_app in *. cbn [nfs cns qn qc] in *.
  assert (Hlen : nfs (Gap f :: (if q - f =? 0 then [] else [Live id (q - f)])) = q /\
                 cns (Gap f :: (if q - f =? 0 then [] else [Live id (q - f)])) = 0).
  { destruct (Z.eqb_spec (q - f) 0); cbn; lia. }
  destruct Hlen as [Hl1 Hl2].
  apply all_at_app in H1 as [A [Hq B]]. cbn [item_ok] in Hq.
  split; cbn [g_items g_F g_crc g_last]; rewrite ?E; rewrite ?nfs_app, ?cns_app, ?Hl1, ?Hl2; try lia.
  - apply all_at_app. split; [exact A|]. apply all_at_app. rewrite Hl1, Hl2. split; [|exact B].
    cbn. split; [lia|]. destruct (Z.eqb_spec (q - f) 0); cbn; [exact I|]. split; [lia|exact I].
  - unfold g_lives. cbn [g_items]. rewrite ?E. rewrite ids_app, ids_live in H6. rewrite ids_app. cbn [app]. rewrite ids_gap.
    apply sorted_app in H6 as (S1 & S2 & S3). pose proof S2 as S2'. apply StronglySorted_inv in S2 as [S2 _].
    destruct (Z.eqb_spec (q - f) 0); cbn [app].
    + apply sorted_app. split; [exact S1|]. split; [exact S2|]. intros x y Hx Hy. apply S3; [exact Hx|constructor; exact Hy].
    + rewrite ids_live. apply sorted_app. split; [exact S1|]. split; [exact S2'|exact S3].
Qed.
