(** * ConfTree: the unit tests of src/sumtree/test/ replayed on the model (see ConfBase.v).
    The two tests that draw their leaves from Rust's seeded generator (test_fuzz.rs,
    test_node_insert_large_quantity) are replayed with another pseudo-random sequence. *)
From Verif Require Import Base Dec Types State TickMath Sumtree Delete Tick Order Auth Contract Query ConfBase.

(** src/sumtree/test/test_node.rs:22-134 assert_internal_values, on one internal node *)
Definition internal_ok (balanced : bool) (s : storage) (n : tnode) : bool :=
  let l := get_left s n in
  let r := get_right s n in
  let h o := match o with Some x => get_height 99 s x | None => 0 end in
  let v o := match o with Some x => get_value x | None => 0 end in
  let lo o := match o with Some x => get_min_range x | None => U256_MAX end in
  let hi o := match o with Some x => match get_max_range x with Ok m => m | _ => -1 end | None => 0 end in
  let child o := match o with Some x => eqb (n_parent x) (Some (n_key n)) | None => true end in
  (get_value n =? v l + v r) && (get_min_range n =? Z.min (lo l) (lo r)) && ok_is (Z.max (hi l) (hi r)) (get_max_range n) &&
  (get_weight n =? get_height 99 s n) && (negb balanced || (Z.abs (h l - h r) <=? 1)) && child l && child r && (hi l <=? lo r).
Definition internals_ok (balanced : bool) (s : storage) (l : list tnode) : bool :=
  all (List.filter is_internal l) (internal_ok balanced s).
(** A new leaf with the next id, saved (test_node.rs:367-381). *)
Definition new_leaf (t : ntype) : M storage tnode :=
  let! id := generate_node_id 1 in
  let n := new_node 1 Bid id t in
  let! _ := node_save n in mret n.
Definition zero_range : ntype := NInternal 0 (4294967295 * DEC) 0 0.
(** The in-memory root is threaded through the insertions. *)
Fixpoint insert_all (tree : tnode) (l : list ntype) : M storage tnode :=
  match l with
  | [] => mret tree
  | t :: l =>
      let! n := new_leaf t in
      let! p := tree_insert tree n in insert_all (fst p) l
  end.
Definition new_tree (l : list ntype) : M storage tnode :=
  let! id := generate_node_id 1 in
  insert_all (new_node 1 Bid id zero_range) l.
(** [traverse] gives exactly the stored nodes with these ids. *)
Definition nodes_are (s : storage) (l : list tnode) (ids : list Z) : bool :=
  eqb (map Some l) (map (fun k => s_nodes s !! (1, k)) ids) && eqb (map n_key l) ids.

(** src/sumtree/test/test_node.rs:12-19, 136-408 *)
Record TestNodeInsertCase := mkTestNodeInsertCase { ni_name : string; ni_nodes : list ntype; ni_expected : list Z; ni_print : bool }.
Definition check_insert (c : TestNodeInsertCase) : bool :=
  match new_tree (ni_nodes c) st_empty with
  | (s, Ok tree) => let l := traverse 99 s tree in nodes_are s l (ni_expected c) && internals_ok true s l
  | _ => false
  end.
(* BEGIN sumtree/test/test_node.rs test_node_insert_cases TestNodeInsertCase *)
Definition test_node_insert_cases_cases : list TestNodeInsertCase :=
  [ mkTestNodeInsertCase "Case 1: New node fits in left internal range, insert left" [(NLeaf (5 * DEC) (1 * DEC)); (NLeaf (10 * DEC) (20 * DEC)); (NLeaf (8 * DEC) (12 * DEC)); (NLeaf (8 * DEC) (30 * DEC)); (NLeaf (6 * DEC) (6 * DEC))] [1; 5; 9; 2; 8; 4; 7; 3; 6] true;
    mkTestNodeInsertCase "Case 2: New node fits in right internal range, insert right" [(NLeaf (11 * DEC) (1 * DEC)); (NLeaf (5 * DEC) (20 * DEC)); (NLeaf (8 * DEC) (12 * DEC)); (NLeaf (8 * DEC) (30 * DEC)); (NLeaf (5 * DEC) (25 * DEC))] [1; 5; 2; 4; 7; 9; 3; 8; 6] true;
    mkTestNodeInsertCase "Case 3: Both left and right are internal, node does not fit in either, insert left" [(NLeaf (11 * DEC) (1 * DEC)); (NLeaf (5 * DEC) (20 * DEC)); (NLeaf (6 * DEC) (12 * DEC)); (NLeaf (8 * DEC) (30 * DEC)); (NLeaf (2 * DEC) (18 * DEC))] [1; 5; 2; 9; 4; 8; 7; 3; 6] true;
    mkTestNodeInsertCase "Case 4: New node does not fit in right range (or is less than right.min if right is a leaf) and left node is a leaf, split left" [(NLeaf (10 * DEC) (1 * DEC)); (NLeaf (10 * DEC) (20 * DEC)); (NLeaf (8 * DEC) (12 * DEC))] [1; 5; 2; 4; 3] true;
    mkTestNodeInsertCase "Case 5: New node does not fit in left range (or is greater than or equal to left.max when left is a leaf) and right node is a leaf, split right" [(NLeaf (10 * DEC) (1 * DEC)); (NLeaf (10 * DEC) (20 * DEC)); (NLeaf (8 * DEC) (12 * DEC)); (NLeaf (8 * DEC) (30 * DEC))] [1; 5; 2; 4; 7; 3; 6] true;
    mkTestNodeInsertCase "Case 6: Right node is empty, new node is lower than left node, move left node to right and insert left" [(NLeaf (10 * DEC) (12 * DEC)); (NLeaf (10 * DEC) (1 * DEC))] [1; 3; 2] true;
    mkTestNodeInsertCase "Case 7: Left node is empty, insert left" [(NLeaf (10 * DEC) (1 * DEC))] [1; 2] true;
    mkTestNodeInsertCase "Case 8: Right is empty, insert right" [(NLeaf (10 * DEC) (1 * DEC)); (NLeaf (10 * DEC) (12 * DEC))] [1; 2; 3] true;
    mkTestNodeInsertCase "Insert sequential nodes" [(NLeaf (10 * DEC) (5 * DEC)); (NLeaf (20 * DEC) (15 * DEC)); (NLeaf (30 * DEC) (35 * DEC))] [1; 2; 5; 3; 4] true;
    mkTestNodeInsertCase "Insert adjacent nodes in decreasing order" [(NLeaf (25 * DEC) (35 * DEC)); (NLeaf (25 * DEC) (10 * DEC))] [1; 3; 2] true ].
(* END *)
Example test_node_insert_cases : failures ni_name check_insert test_node_insert_cases_cases = [].
Proof. vm_compute. reflexivity. Qed.

(** src/sumtree/test/test_node.rs:410-457 *)
Definition saved (l : list tnode) (s : storage) : storage :=
  foldl (fun s n => fst (node_save n s)) s l.
Example test_left_empty_right_non_empty :
  let s0 := fst (generate_node_id 1 (fst (generate_node_id 1 (fst (generate_node_id 1 st_empty))))) in
  let s := saved [ mkNode 1 1 Bid None (Some 2) None zero_range; mkNode 2 1 Bid None None (Some 1) (NLeaf (10 * DEC) (11 * DEC)) ]
             (set_tree (<[(1, Bid) := 1]> (s_tree s0)) s0) in
  ok_and (get_root_node s 1 Bid) (fun root => err_is EInvalidSumtree (snd (tree_insert root (new_node 1 Bid 3 (NLeaf (10 * DEC) (21 * DEC))) s))) = true.
Proof. vm_compute. reflexivity. Qed.

(** src/sumtree/test/test_node.rs:460-659 *)
Record NodeDeletionTestCase := mkNodeDeletionTestCase { nd_name : string; nd_nodes : list ntype; nd_delete : list Z; nd_expected : list Z; nd_print : bool }.
Fixpoint delete_all (l : list Z) : M storage unit :=
  match l with
  | [] => mret tt
  | k :: l =>
      let! n := mreadr (fun s => ok_or (s_nodes s !! (1, k)) EStd) in
      let! _ := node_delete 99 n in delete_all l
  end.
Definition check_delete (c : NodeDeletionTestCase) : bool :=
  match new_tree (nd_nodes c) st_empty with
  | (s, Ok tree) =>
      match delete_all (nd_delete c) s with
      | (s, Ok _) =>
          if eqb (nd_expected c) [] then eqb (get_parent s tree) None
          else match s_nodes s !! (1, n_key tree) with
               | Some tree =>
                   let l := traverse 99 s tree in
                   nodes_are s l (nd_expected c) && all (nd_delete c) (fun k => eqb (s_nodes s !! (1, k)) None) && internals_ok true s l
               | None => false
               end
      | _ => false
      end
  | _ => false
  end.
(* BEGIN sumtree/test/test_node.rs test_node_deletion_valid NodeDeletionTestCase *)
Definition test_node_deletion_valid_cases : list NodeDeletionTestCase :=
  [ mkNodeDeletionTestCase "Remove only node" [(NLeaf (10 * DEC) (1 * DEC))] [2] [] true;
    mkNodeDeletionTestCase "Remove one of two nodes" [(NLeaf (10 * DEC) (1 * DEC)); (NLeaf (5 * DEC) (11 * DEC))] [2] [1; 3] true;
    mkNodeDeletionTestCase "Remove nested node" [(NLeaf (10 * DEC) (1 * DEC)); (NLeaf (5 * DEC) (21 * DEC)); (NLeaf (10 * DEC) (11 * DEC))] [2] [1; 5; 4; 3] true;
    mkNodeDeletionTestCase "Remove both children of internal" [(NLeaf (10 * DEC) (1 * DEC)); (NLeaf (5 * DEC) (21 * DEC)); (NLeaf (10 * DEC) (11 * DEC))] [2; 4] [1; 3] true;
    mkNodeDeletionTestCase "Remove parent node" [(NLeaf (10 * DEC) (1 * DEC)); (NLeaf (5 * DEC) (21 * DEC)); (NLeaf (10 * DEC) (11 * DEC))] [5] [1; 3] true ].
(* END *)
Example test_node_deletion_valid : failures nd_name check_delete test_node_deletion_valid_cases = [].
Proof. vm_compute. reflexivity. Qed.

(** src/sumtree/test/test_node.rs:1292-1345 (and 1883-1933, 2623-2673): the nodes are saved, the parents
    of the leaves are synced, the root is rotated or rebalanced. *)
Fixpoint sync_leaves (l : list tnode) : M storage unit :=
  match l with
  | [] => mret tt
  | n :: l =>
      let! _ :=
        if is_internal n || eqb (n_parent n) None then mret tt
        else
          let! n := node_sync n in
          let! p := mreadr (fun s => match get_parent s n with Some p => Ok p | None => Panic end) in
          sync_range_and_value_up 99 p in
      sync_leaves l
  end.
Definition turned (balanced : bool) (turn : tnode -> M storage tnode) (nodes : list tnode) (expected : list Z) (err : option error) : bool :=
  match nodes with
  | [] => false
  | n :: _ =>
      let s := saved nodes (set_tree {[ (1, Bid) := n_key n ]} st_empty) in
      match sync_leaves nodes s with
      | (s, Ok _) =>
          ok_and (get_root_node s 1 Bid) (fun tree =>
            let '(s, r) := turn tree s in
            match err with
            | Some e => err_is e r
            | None =>
                ok_and r (fun _ => ok_and (get_root_node s 1 Bid) (fun tree =>
                  let l := traverse 99 s tree in
                  eqb (map n_key l) expected && internals_ok balanced s l))
            end)
      | _ => false
      end
  end.
(** src/sumtree/test/test_node.rs:661-1346 *)
Record RotateRightTestCase := mkRotateRightTestCase { rr_name : string; rr_nodes : list tnode; rr_expected : list Z; rr_error : option error; rr_print : bool }.
(* BEGIN sumtree/test/test_node.rs test_rotate_right RotateRightTestCase *)
Definition test_rotate_right_cases : list RotateRightTestCase :=
  [ mkRotateRightTestCase "Left internal right empty" [mkNode 1 1 Bid (Some 2) None None (NInternal 0 (4294967295 * DEC) 0 0); mkNode 2 1 Bid (Some 3) (Some 4) (Some 1) ((NInternal (2 * DEC) (1 * DEC) (3 * DEC) 0)); mkNode 3 1 Bid None None (Some 2) ((NLeaf (1 * DEC) (1 * DEC))); mkNode 4 1 Bid None None (Some 2) ((NLeaf (1 * DEC) (2 * DEC)))] [2; 3; 1; 4] None true;
    mkRotateRightTestCase "Left internal (no left-right ancestor) right leaf" [mkNode 1 1 Bid (Some 2) (Some 4) None (NInternal 0 (4294967295 * DEC) 0 0); mkNode 2 1 Bid (Some 3) None (Some 1) ((NInternal (2 * DEC) (1 * DEC) (3 * DEC) 0)); mkNode 3 1 Bid None None (Some 2) ((NLeaf (1 * DEC) (1 * DEC))); mkNode 4 1 Bid None None (Some 1) ((NLeaf (1 * DEC) (2 * DEC)))] [2; 3; 1; 4] None true;
    mkRotateRightTestCase "Left internal (no left-left ancestor) right leaf" [mkNode 1 1 Bid (Some 2) (Some 4) None (NInternal 0 (4294967295 * DEC) 0 0); mkNode 2 1 Bid None (Some 3) (Some 1) ((NInternal (2 * DEC) (1 * DEC) (3 * DEC) 0)); mkNode 3 1 Bid None None (Some 2) ((NLeaf (1 * DEC) (1 * DEC))); mkNode 4 1 Bid None None (Some 1) ((NLeaf (1 * DEC) (2 * DEC)))] [2; 1; 3; 4] None true;
    mkRotateRightTestCase "Left internal right leaf" [mkNode 1 1 Bid (Some 2) (Some 5) None (NInternal 0 (4294967295 * DEC) 0 0); mkNode 2 1 Bid (Some 3) (Some 4) (Some 1) ((NInternal (2 * DEC) (1 * DEC) (3 * DEC) 0)); mkNode 3 1 Bid None None (Some 2) ((NLeaf (1 * DEC) (1 * DEC))); mkNode 4 1 Bid None None (Some 2) ((NLeaf (1 * DEC) (2 * DEC))); mkNode 5 1 Bid None None (Some 1) ((NLeaf (1 * DEC) (3 * DEC)))] [2; 3; 1; 4; 5] None true;
    mkRotateRightTestCase "Left internal right internal" [mkNode 1 1 Bid (Some 2) (Some 5) None (NInternal 0 (4294967295 * DEC) 0 0); mkNode 2 1 Bid (Some 3) (Some 4) (Some 1) ((NInternal (2 * DEC) (1 * DEC) (3 * DEC) 0)); mkNode 3 1 Bid None None (Some 2) ((NLeaf (1 * DEC) (1 * DEC))); mkNode 4 1 Bid None None (Some 2) ((NLeaf (1 * DEC) (2 * DEC))); mkNode 5 1 Bid (Some 6) (Some 7) (Some 1) ((NInternal (2 * DEC) (3 * DEC) (5 * DEC) 0)); mkNode 6 1 Bid None None (Some 5) ((NLeaf (1 * DEC) (3 * DEC))); mkNode 7 1 Bid None None (Some 5) ((NLeaf (1 * DEC) (4 * DEC)))] [2; 3; 1; 4; 5; 6; 7] None true;
    mkRotateRightTestCase "Left internal (no left-left) right internal" [mkNode 1 1 Bid (Some 2) (Some 5) None (NInternal 0 (4294967295 * DEC) 0 0); mkNode 2 1 Bid None (Some 4) (Some 1) ((NInternal (2 * DEC) (1 * DEC) (3 * DEC) 0)); mkNode 4 1 Bid None None (Some 2) ((NLeaf (1 * DEC) (2 * DEC))); mkNode 5 1 Bid (Some 6) (Some 7) (Some 1) ((NInternal (2 * DEC) (3 * DEC) (5 * DEC) 0)); mkNode 6 1 Bid None None (Some 5) ((NLeaf (1 * DEC) (3 * DEC))); mkNode 7 1 Bid None None (Some 5) ((NLeaf (1 * DEC) (4 * DEC)))] [2; 1; 4; 5; 6; 7] None true;
    mkRotateRightTestCase "Left internal (no left-right) right internal" [mkNode 1 1 Bid (Some 2) (Some 5) None (NInternal 0 (4294967295 * DEC) 0 0); mkNode 2 1 Bid (Some 4) None (Some 1) ((NInternal (2 * DEC) (1 * DEC) (3 * DEC) 0)); mkNode 4 1 Bid None None (Some 2) ((NLeaf (1 * DEC) (2 * DEC))); mkNode 5 1 Bid (Some 6) (Some 7) (Some 1) ((NInternal (2 * DEC) (3 * DEC) (5 * DEC) 0)); mkNode 6 1 Bid None None (Some 5) ((NLeaf (1 * DEC) (3 * DEC))); mkNode 7 1 Bid None None (Some 5) ((NLeaf (1 * DEC) (4 * DEC)))] [2; 4; 1; 5; 6; 7] None true;
    mkRotateRightTestCase "Left empty right internal" [mkNode 1 1 Bid None (Some 5) None (NInternal 0 (4294967295 * DEC) 0 0); mkNode 5 1 Bid (Some 6) (Some 7) (Some 1) ((NInternal (2 * DEC) (3 * DEC) (5 * DEC) 0)); mkNode 6 1 Bid None None (Some 5) ((NLeaf (1 * DEC) (3 * DEC))); mkNode 7 1 Bid None None (Some 5) ((NLeaf (1 * DEC) (4 * DEC)))] [] (Some EInvalidNodeType) true;
    mkRotateRightTestCase "Left leaf right internal" [mkNode 1 1 Bid (Some 2) (Some 5) None (NInternal 0 (4294967295 * DEC) 0 0); mkNode 2 1 Bid None None (Some 1) ((NLeaf (1 * DEC) (2 * DEC))); mkNode 5 1 Bid (Some 6) (Some 7) (Some 1) ((NInternal (2 * DEC) (3 * DEC) (5 * DEC) 0)); mkNode 6 1 Bid None None (Some 5) ((NLeaf (1 * DEC) (3 * DEC))); mkNode 7 1 Bid None None (Some 5) ((NLeaf (1 * DEC) (4 * DEC)))] [] (Some EInvalidNodeType) true ].
(* END *)
Example test_rotate_right : failures rr_name (fun c => turned false rotate_right (rr_nodes c) (rr_expected c) (rr_error c)) test_rotate_right_cases = [].
Proof. vm_compute. reflexivity. Qed.
(** src/sumtree/test/test_node.rs:1348-1935 *)
Record RotateLeftTestCase := mkRotateLeftTestCase { rl_name : string; rl_nodes : list tnode; rl_expected : list Z; rl_error : option error; rl_print : bool }.
(* BEGIN sumtree/test/test_node.rs test_rotate_left RotateLeftTestCase *)
Definition test_rotate_left_cases : list RotateLeftTestCase :=
  [ mkRotateLeftTestCase "Right internal left empty" [mkNode 1 1 Bid None (Some 2) None (NInternal 0 (4294967295 * DEC) 0 0); mkNode 2 1 Bid (Some 3) (Some 4) (Some 1) ((NInternal (2 * DEC) (1 * DEC) (3 * DEC) 0)); mkNode 3 1 Bid None None (Some 2) ((NLeaf (1 * DEC) (1 * DEC))); mkNode 4 1 Bid None None (Some 2) ((NLeaf (1 * DEC) (2 * DEC)))] [2; 1; 3; 4] None true;
    mkRotateLeftTestCase "Right internal (no right-right ancestor) left leaf" [mkNode 1 1 Bid (Some 4) (Some 2) None (NInternal 0 (4294967295 * DEC) 0 0); mkNode 2 1 Bid (Some 3) None (Some 1) ((NInternal (2 * DEC) (1 * DEC) (3 * DEC) 0)); mkNode 3 1 Bid None None (Some 2) ((NLeaf (1 * DEC) (3 * DEC))); mkNode 4 1 Bid None None (Some 1) ((NLeaf (1 * DEC) (2 * DEC)))] [2; 1; 4; 3] None true;
    mkRotateLeftTestCase "Right internal (no right-left ancestor) left leaf" [mkNode 1 1 Bid (Some 4) (Some 2) None (NInternal 0 (4294967295 * DEC) 0 0); mkNode 2 1 Bid None (Some 3) (Some 1) ((NInternal (2 * DEC) (1 * DEC) (3 * DEC) 0)); mkNode 3 1 Bid None None (Some 2) ((NLeaf (1 * DEC) (3 * DEC))); mkNode 4 1 Bid None None (Some 1) ((NLeaf (1 * DEC) (2 * DEC)))] [2; 1; 4; 3] None true;
    mkRotateLeftTestCase "Right internal left leaf" [mkNode 1 1 Bid (Some 5) (Some 2) None (NInternal 0 (4294967295 * DEC) 0 0); mkNode 2 1 Bid (Some 3) (Some 4) (Some 1) ((NInternal (2 * DEC) (1 * DEC) (3 * DEC) 0)); mkNode 3 1 Bid None None (Some 2) ((NLeaf (1 * DEC) (4 * DEC))); mkNode 4 1 Bid None None (Some 2) ((NLeaf (1 * DEC) (5 * DEC))); mkNode 5 1 Bid None None (Some 1) ((NLeaf (1 * DEC) (3 * DEC)))] [2; 1; 5; 3; 4] None true;
    mkRotateLeftTestCase "Right internal (no right-left) left internal" [mkNode 1 1 Bid (Some 5) (Some 2) None (NInternal 0 (4294967295 * DEC) 0 0); mkNode 2 1 Bid None (Some 4) (Some 1) ((NInternal (2 * DEC) (1 * DEC) (3 * DEC) 0)); mkNode 4 1 Bid None None (Some 2) ((NLeaf (1 * DEC) (5 * DEC))); mkNode 5 1 Bid (Some 6) (Some 7) (Some 1) ((NInternal (2 * DEC) (3 * DEC) (5 * DEC) 0)); mkNode 6 1 Bid None None (Some 5) ((NLeaf (1 * DEC) (3 * DEC))); mkNode 7 1 Bid None None (Some 5) ((NLeaf (1 * DEC) (4 * DEC)))] [2; 1; 5; 6; 7; 4] None true;
    mkRotateLeftTestCase "Right internal (no right-right) left internal" [mkNode 1 1 Bid (Some 5) (Some 2) None (NInternal 0 (4294967295 * DEC) 0 0); mkNode 2 1 Bid (Some 4) None (Some 1) ((NInternal (2 * DEC) (1 * DEC) (3 * DEC) 0)); mkNode 4 1 Bid None None (Some 2) ((NLeaf (1 * DEC) (5 * DEC))); mkNode 5 1 Bid (Some 6) (Some 7) (Some 1) ((NInternal (2 * DEC) (3 * DEC) (5 * DEC) 0)); mkNode 6 1 Bid None None (Some 5) ((NLeaf (1 * DEC) (3 * DEC))); mkNode 7 1 Bid None None (Some 5) ((NLeaf (1 * DEC) (4 * DEC)))] [2; 1; 5; 6; 7; 4] None true;
    mkRotateLeftTestCase "Right empty left internal" [mkNode 1 1 Bid (Some 5) None None (NInternal 0 (4294967295 * DEC) 0 0); mkNode 5 1 Bid (Some 6) (Some 7) (Some 1) ((NInternal (2 * DEC) (3 * DEC) (5 * DEC) 0)); mkNode 6 1 Bid None None (Some 5) ((NLeaf (1 * DEC) (3 * DEC))); mkNode 7 1 Bid None None (Some 5) ((NLeaf (1 * DEC) (4 * DEC)))] [] (Some EInvalidNodeType) true;
    mkRotateLeftTestCase "Right leaf left internal" [mkNode 1 1 Bid (Some 5) (Some 2) None (NInternal 0 (4294967295 * DEC) 0 0); mkNode 2 1 Bid None None (Some 1) ((NLeaf (1 * DEC) (2 * DEC))); mkNode 5 1 Bid (Some 6) (Some 7) (Some 1) ((NInternal (2 * DEC) (3 * DEC) (5 * DEC) 0)); mkNode 6 1 Bid None None (Some 5) ((NLeaf (1 * DEC) (3 * DEC))); mkNode 7 1 Bid None None (Some 5) ((NLeaf (1 * DEC) (4 * DEC)))] [] (Some EInvalidNodeType) true ].
(* END *)
Example test_rotate_left : failures rl_name (fun c => turned false rotate_left (rl_nodes c) (rl_expected c) (rl_error c)) test_rotate_left_cases = [].
Proof. vm_compute. reflexivity. Qed.
(** src/sumtree/test/test_node.rs:1937-2674 *)
Record RebalanceTestCase := mkRebalanceTestCase { rb_name : string; rb_nodes : list tnode; rb_expected : list Z; rb_error : option error; rb_print : bool }.
(* BEGIN sumtree/test/test_node.rs test_rebalance RebalanceTestCase *)
Definition test_rebalance_cases : list RebalanceTestCase :=
  [ mkRebalanceTestCase "Case 1: Right Right" [mkNode 1 1 Bid (Some 2) (Some 3) None (NInternal 0 (4294967295 * DEC) 0 0); mkNode 2 1 Bid None None (Some 1) ((NLeaf (1 * DEC) (1 * DEC))); mkNode 3 1 Bid (Some 4) (Some 5) (Some 1) ((NInternal (2 * DEC) (1 * DEC) (3 * DEC) 0)); mkNode 4 1 Bid None None (Some 3) ((NLeaf (1 * DEC) (4 * DEC))); mkNode 5 1 Bid (Some 6) (Some 7) (Some 3) ((NInternal 0 (5 * DEC) (7 * DEC) 0)); mkNode 6 1 Bid None None (Some 5) ((NLeaf (1 * DEC) (5 * DEC))); mkNode 7 1 Bid None None (Some 5) ((NLeaf (1 * DEC) (6 * DEC)))] [3; 1; 2; 4; 5; 6; 7] None true;
    mkRebalanceTestCase "Case 2: Left Left" [mkNode 1 1 Bid (Some 2) (Some 3) None (NInternal 0 (4294967295 * DEC) 0 0); mkNode 2 1 Bid (Some 4) (Some 5) (Some 1) ((NInternal (2 * DEC) (1 * DEC) (3 * DEC) 0)); mkNode 4 1 Bid (Some 6) (Some 7) (Some 2) (NInternal 0 (4294967295 * DEC) 0 0); mkNode 6 1 Bid None None (Some 4) ((NLeaf (1 * DEC) (2 * DEC))); mkNode 7 1 Bid None None (Some 4) ((NLeaf (1 * DEC) (3 * DEC))); mkNode 5 1 Bid None None (Some 2) ((NLeaf (1 * DEC) (4 * DEC))); mkNode 3 1 Bid None None (Some 1) ((NLeaf (1 * DEC) (6 * DEC)))] [2; 4; 6; 7; 1; 5; 3] None true;
    mkRebalanceTestCase "Case 3: Right Left" [mkNode 1 1 Bid (Some 2) (Some 3) None (NInternal 0 (4294967295 * DEC) 0 0); mkNode 2 1 Bid None None (Some 1) ((NLeaf (1 * DEC) (1 * DEC))); mkNode 3 1 Bid (Some 4) (Some 5) (Some 1) ((NInternal (2 * DEC) (1 * DEC) (3 * DEC) 0)); mkNode 4 1 Bid (Some 6) (Some 7) (Some 3) (NInternal 0 (4294967295 * DEC) 0 0); mkNode 6 1 Bid None None (Some 4) ((NLeaf (1 * DEC) (2 * DEC))); mkNode 7 1 Bid None None (Some 4) ((NLeaf (1 * DEC) (3 * DEC))); mkNode 5 1 Bid None None (Some 3) ((NLeaf (1 * DEC) (4 * DEC)))] [4; 1; 2; 6; 3; 7; 5] None true;
    mkRebalanceTestCase "Case 4: Left Right" [mkNode 1 1 Bid (Some 2) (Some 3) None (NInternal 0 (4294967295 * DEC) 0 0); mkNode 2 1 Bid (Some 4) (Some 5) (Some 1) ((NInternal (2 * DEC) (1 * DEC) (3 * DEC) 0)); mkNode 4 1 Bid (Some 6) (Some 7) (Some 2) (NInternal 0 (4294967295 * DEC) 0 0); mkNode 6 1 Bid None None (Some 4) ((NLeaf (1 * DEC) (2 * DEC))); mkNode 7 1 Bid None None (Some 4) ((NLeaf (1 * DEC) (3 * DEC))); mkNode 5 1 Bid None None (Some 2) ((NLeaf (1 * DEC) (4 * DEC))); mkNode 3 1 Bid None None (Some 1) ((NLeaf (1 * DEC) (5 * DEC)))] [2; 4; 6; 7; 1; 5; 3] None true;
    mkRebalanceTestCase "Pre-balanced: left leaf right empty" [mkNode 1 1 Bid (Some 2) None None (NInternal 0 (4294967295 * DEC) 0 0); mkNode 2 1 Bid None None (Some 1) ((NLeaf (1 * DEC) (2 * DEC)))] [1; 2] None true;
    mkRebalanceTestCase "Pre-balanced: left empty right leaf" [mkNode 1 1 Bid None (Some 2) None (NInternal 0 (4294967295 * DEC) 0 0); mkNode 2 1 Bid None None (Some 1) ((NLeaf (1 * DEC) (2 * DEC)))] [1; 2] None true;
    mkRebalanceTestCase "Pre-balanced: left internal right leaf" [mkNode 1 1 Bid (Some 2) (Some 3) None (NInternal 0 (4294967295 * DEC) 0 0); mkNode 2 1 Bid (Some 4) (Some 5) (Some 1) ((NInternal (2 * DEC) (2 * DEC) (4 * DEC) 0)); mkNode 4 1 Bid None None (Some 2) ((NLeaf (1 * DEC) (2 * DEC))); mkNode 5 1 Bid None None (Some 2) ((NLeaf (1 * DEC) (3 * DEC))); mkNode 3 1 Bid None None (Some 1) ((NLeaf (1 * DEC) (4 * DEC)))] [1; 2; 4; 5; 3] None true;
    mkRebalanceTestCase "Pre-balanced: left leaf right internal" [mkNode 1 1 Bid (Some 2) (Some 3) None (NInternal 0 (4294967295 * DEC) 0 0); mkNode 2 1 Bid None None (Some 1) ((NLeaf (1 * DEC) (1 * DEC))); mkNode 3 1 Bid (Some 4) (Some 5) (Some 1) ((NInternal (2 * DEC) (2 * DEC) (4 * DEC) 0)); mkNode 4 1 Bid None None (Some 3) ((NLeaf (1 * DEC) (2 * DEC))); mkNode 5 1 Bid None None (Some 3) ((NLeaf (1 * DEC) (3 * DEC)))] [1; 2; 3; 4; 5] None true;
    mkRebalanceTestCase "Pre-balanced: left internal right internal" [mkNode 1 1 Bid (Some 2) (Some 3) None (NInternal 0 (4294967295 * DEC) 0 0); mkNode 2 1 Bid (Some 4) (Some 5) (Some 1) ((NInternal (2 * DEC) (2 * DEC) (4 * DEC) 0)); mkNode 4 1 Bid None None (Some 2) ((NLeaf (1 * DEC) (2 * DEC))); mkNode 5 1 Bid None None (Some 2) ((NLeaf (1 * DEC) (3 * DEC))); mkNode 3 1 Bid (Some 6) (Some 7) (Some 1) ((NInternal (2 * DEC) (2 * DEC) (4 * DEC) 0)); mkNode 6 1 Bid None None (Some 3) ((NLeaf (1 * DEC) (4 * DEC))); mkNode 7 1 Bid None None (Some 3) ((NLeaf (1 * DEC) (5 * DEC)))] [1; 2; 4; 5; 3; 6; 7] None true;
    mkRebalanceTestCase "invalid node type" [mkNode 1 1 Bid None None None ((NLeaf (1 * DEC) (1 * DEC)))] [] (Some EInvalidNodeType) true;
    mkRebalanceTestCase "childless internal node" [mkNode 1 1 Bid None None None ((NInternal (1 * DEC) (1 * DEC) (2 * DEC) 0))] [] (Some EChildlessInternalNode) true ].
(* END *)
Example test_rebalance : failures rb_name (fun c => turned true rebalance (rb_nodes c) (rb_expected c) (rb_error c)) test_rebalance_cases = [].
Proof. vm_compute. reflexivity. Qed.

(** src/sumtree/test/test_tree.rs:8-14, 294-318 insert_and_refetch, 256-291 the loop *)
Record TestPrefixSumCase := mkTestPrefixSumCase { ps_name : string; ps_nodes : list ntype; ps_target : Z; ps_prev : Z; ps_expected : Z }.
Definition insert_and_refetch (t : ntype) : M storage tnode :=
  let! tree := get_or_init_root_node 1 Bid in
  let! id := generate_node_id 1 in
  let! _ := tree_insert tree (new_node 1 Bid id t) in
  mreadr (fun s => get_root_node s 1 Bid).
Fixpoint insert_fetch (tree : tnode) (l : list ntype) : M storage tnode :=
  match l with [] => mret tree | t :: l => let! tree := insert_and_refetch t in insert_fetch tree l end.
Definition check_prefix (c : TestPrefixSumCase) : bool :=
  match (let! tree := get_or_init_root_node 1 Bid in insert_fetch tree (ps_nodes c)) st_empty with
  | (s, Ok tree) => internals_ok true s (traverse 99 s tree) && ok_is (ps_expected c) (get_prefix_sum s tree (ps_target c) (ps_prev c))
  | _ => false
  end.
(* BEGIN sumtree/test/test_tree.rs test_get_prefix_sum_valid TestPrefixSumCase *)
Definition test_get_prefix_sum_valid_cases : list TestPrefixSumCase :=
  [ mkTestPrefixSumCase "Single node, target ETAS equal to node ETAS" [(NLeaf (5 * DEC) (10 * DEC))] (10 * DEC) 0 (5 * DEC);
    mkTestPrefixSumCase "Single node, target ETAS below node range" [(NLeaf (20 * DEC) (50 * DEC))] (25 * DEC) 0 0;
    mkTestPrefixSumCase "Single node, target ETAS above node range" [(NLeaf (10 * DEC) (10 * DEC))] (30 * DEC) 0 (10 * DEC);
    mkTestPrefixSumCase "Multiple nodes, target ETAS in the middle" [(NLeaf (10 * DEC) (5 * DEC)); (NLeaf (20 * DEC) (15 * DEC)); (NLeaf (30 * DEC) (45 * DEC))] (20 * DEC) (10 * DEC) (30 * DEC);
    mkTestPrefixSumCase "Multiple nodes, target ETAS on boundary" [(NLeaf (3 * DEC) (2 * DEC)); (NLeaf (12 * DEC) (5 * DEC))] (5 * DEC) 0 (15 * DEC);
    mkTestPrefixSumCase "Target ETAS below all nodes" [(NLeaf (10 * DEC) (10 * DEC)); (NLeaf (20 * DEC) (20 * DEC)); (NLeaf (30 * DEC) (40 * DEC))] (5 * DEC) 0 0;
    mkTestPrefixSumCase "Target ETAS above all nodes" [(NLeaf (10 * DEC) (10 * DEC)); (NLeaf (20 * DEC) (20 * DEC)); (NLeaf (30 * DEC) (40 * DEC))] (45 * DEC) 0 (60 * DEC);
    mkTestPrefixSumCase "Nodes inserted in reverse order" [(NLeaf (10 * DEC) (40 * DEC)); (NLeaf (5 * DEC) (20 * DEC)); (NLeaf (5 * DEC) (10 * DEC))] (25 * DEC) 0 (10 * DEC);
    mkTestPrefixSumCase "Nodes inserted in shuffled order" [(NLeaf (10 * DEC) (40 * DEC)); (NLeaf (5 * DEC) (10 * DEC)); (NLeaf (5 * DEC) (20 * DEC))] (25 * DEC) 0 (10 * DEC);
    mkTestPrefixSumCase "Nodes inserted in shuffled order, target ETAS at node lower bound" [(NLeaf (11 * DEC) (35 * DEC)); (NLeaf (7 * DEC) (10 * DEC)); (NLeaf (5 * DEC) (20 * DEC))] (20 * DEC) 0 (12 * DEC);
    mkTestPrefixSumCase "Nodes with large gaps between ranges" [(NLeaf (10 * DEC) (10 * DEC)); (NLeaf (20 * DEC) (50 * DEC)); (NLeaf (30 * DEC) (100 * DEC))] (75 * DEC) (70 * DEC) (30 * DEC);
    mkTestPrefixSumCase "Nodes with adjacent ranges" [(NLeaf (10 * DEC) (10 * DEC)); (NLeaf (10 * DEC) (20 * DEC)); (NLeaf (10 * DEC) (30 * DEC))] (10 * DEC) 0 (30 * DEC);
    mkTestPrefixSumCase "Complex case with many nodes (shuffled, adjacent, spaced out)" [(NLeaf (5 * DEC) (10 * DEC)); (NLeaf (19 * DEC) (121 * DEC)); (NLeaf (4 * DEC) (15 * DEC)); (NLeaf (10 * DEC) (50 * DEC)); (NLeaf (9 * DEC) (61 * DEC)); (NLeaf (20 * DEC) (100 * DEC)); (NLeaf (50 * DEC) (200 * DEC)); (NLeaf (40 * DEC) (260 * DEC)); (NLeaf (29 * DEC) (301 * DEC)); (NLeaf (100 * DEC) (400 * DEC)); (NLeaf (150 * DEC) (600 * DEC))] (305 * DEC) (300 * DEC) (186 * DEC);
    mkTestPrefixSumCase "batch realization case: cancels are back to back" [(NLeaf (10 * DEC) (10 * DEC)); (NLeaf (10 * DEC) (20 * DEC)); (NLeaf (10 * DEC) (30 * DEC))] (10 * DEC) 0 (30 * DEC);
    mkTestPrefixSumCase "batch realization case: gap between cancels that is filled" [(NLeaf (10 * DEC) (10 * DEC)); (NLeaf (10 * DEC) (30 * DEC)); (NLeaf (10 * DEC) (40 * DEC))] (20 * DEC) 0 (30 * DEC);
    mkTestPrefixSumCase "batch realization case: partially realized left node" [(NLeaf (10 * DEC) (10 * DEC)); (NLeaf (10 * DEC) (20 * DEC)); (NLeaf (10 * DEC) (30 * DEC)); (NLeaf (10 * DEC) (40 * DEC))] (20 * DEC) (10 * DEC) (40 * DEC);
    mkTestPrefixSumCase "batch realization case: fully realized left node" [(NLeaf (10 * DEC) (10 * DEC)); (NLeaf (10 * DEC) (20 * DEC)); (NLeaf (10 * DEC) (30 * DEC)); (NLeaf (10 * DEC) (40 * DEC))] (20 * DEC) (20 * DEC) (20 * DEC);
    mkTestPrefixSumCase "batch realization case: fully realized left node with gap" [(NLeaf (10 * DEC) (10 * DEC)); (NLeaf (10 * DEC) (30 * DEC)); (NLeaf (10 * DEC) (50 * DEC)); (NLeaf (10 * DEC) (60 * DEC))] (30 * DEC) (20 * DEC) (20 * DEC);
    mkTestPrefixSumCase "batch realization case: partially realized left node with gap" [(NLeaf (10 * DEC) (10 * DEC)); (NLeaf (10 * DEC) (30 * DEC)); (NLeaf (10 * DEC) (40 * DEC)); (NLeaf (10 * DEC) (50 * DEC))] (30 * DEC) (10 * DEC) (40 * DEC);
    mkTestPrefixSumCase "batch realization case: partially realized left node with gap does not cause overlap" [(NLeaf (10 * DEC) (10 * DEC)); (NLeaf (10 * DEC) (30 * DEC)); (NLeaf (10 * DEC) (50 * DEC)); (NLeaf (10 * DEC) (60 * DEC))] (30 * DEC) (10 * DEC) (20 * DEC) ].
(* END *)
Example test_get_prefix_sum_valid : failures ps_name check_prefix test_get_prefix_sum_valid_cases = [].
Proof. vm_compute. reflexivity. Qed.

(** src/sumtree/test/test_node.rs:2676-2760: many unit leaves in pseudo-random order (here n*i mod p). *)
Definition shuffled : list Z := map (fun i => (Z.of_nat i * 91) mod 251) (seq 1 250).
Definition check_large (target : Z) : bool :=
  match (let! tree := get_or_init_root_node 1 Bid in insert_fetch tree (map (fun v => NLeaf DEC (v * DEC)) shuffled)) st_empty with
  | (s, Ok tree) =>
      internals_ok true s (traverse 99 s tree) &&
      ok_is (Z.of_nat (length (List.filter (fun v => v <=? target) shuffled)) * DEC) (get_prefix_sum s tree (target * DEC) (get_value tree))
  | _ => false
  end.
Example test_node_insert_large_quantity : check_large 136 = true.
Proof. vm_compute. reflexivity. Qed.

(** src/sumtree/test/test_fuzz.rs:18-89: adjacent leaves of pseudo-random sizes; some of them are inserted
    in pseudo-random order; after each insertion the invariants and the prefix sum are checked. *)
Fixpoint lcg (n : nat) (x : Z) : list Z :=
  match n with O => [] | S n => let y := (x * 1103515245 + 12345) mod 2147483648 in y :: lcg n y end.
Fixpoint adjacent (start : Z) (l : list Z) : list (Z * Z) :=
  match l with [] => [] | v :: l => (start, v + 1) :: adjacent (start + (v + 1)) l end.
Definition fuzz_leaves (n : nat) (seed : Z) : list (Z * Z) :=
  let l := adjacent 0 (lcg n seed) in
  flat_map (fun i => match nth_error l (Z.to_nat ((Z.of_nat i * 37) mod Z.of_nat (S n))) with Some x => [x] | None => [] end) (seq 1 (n / 2)).
Fixpoint fuzz (target sum : Z) (l : list (Z * Z)) (s : storage) : bool :=
  match l with
  | [] => true
  | (start, v) :: l =>
      match insert_and_refetch (NLeaf (v * DEC) (start * DEC)) s with
      | (s, Ok tree) =>
          let sum := if start <=? target then sum + v else sum in
          internals_ok true s (traverse 99 s tree) &&
          ok_is (sum * DEC) (get_prefix_sum s tree (target * DEC) (get_value tree)) && fuzz target sum l s
      | _ => false
      end
  end.
Example test_fuzz_insert :
  all [1; 42; 1234567890] (fun seed => fuzz 70000000000 0 (fuzz_leaves 120 seed) st_empty) = true.
Proof. vm_compute. reflexivity. Qed.
