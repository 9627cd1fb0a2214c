(** * Tick: src/tick.rs *)
From Verif Require Import Base Dec Types State Sumtree.

(** Body of the loop over directions in sync_tick, src/tick.rs:38-90, for one
    direction [d]: takes the values of that direction and returns the updated ones. *)
Definition sync_tick_dir (tick : Z) (d : dir) (tv : tick_values) (target_etas : Z)
  : M storage tick_values :=
  if tv_last tv =? target_etas then mret tv
  else
    let old_crc := tv_crc tv in
    let! tree := get_or_init_root_node tick d in
    let! new_crc := mreadr (fun s => get_prefix_sum s tree target_etas old_crc) in
    let! realized := mlift (match checked_sub new_crc old_crc with
                            | Ok x => Ok x
                            | Err _ => Err (EInvalidPrefixSum old_crc new_crc)
                            | Panic => Panic
                            | NoFuel => NoFuel
                            end) in
    let! etas := mlift (checked_add256 (tv_etas tv) realized) in
    let tv := mkTV (tv_tal tv) (tv_ctt tv) etas new_crc target_etas in
    let! _ := mensure (tv_etas tv <=? tv_ctt tv) EInvalidTickSync in
    mret tv.

(** src/tick.rs:11-99 sync_tick.  The loop over [Bid; Ask] is unrolled. *)
Definition sync_tick (tick bid_etas ask_etas : Z) : M storage unit :=
  let! ts := mreadr (fun s => ok_or (s_ticks s !! tick) EStd) in
  let bid_values := get_values ts Bid in
  let ask_values := get_values ts Ask in
  if (tv_last bid_values =? bid_etas) && (tv_last ask_values =? ask_etas) then mret tt
  else
    let! bid_values := sync_tick_dir tick Bid bid_values bid_etas in
    let! ask_values := sync_tick_dir tick Ask ask_values ask_etas in
    let ts := set_values ts Bid bid_values in
    let ts := set_values ts Ask ask_values in
    save_tick tick ts.
