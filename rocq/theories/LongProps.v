(** C132: a longer recording changes only the last records of the product. *)
From Coq Require Import List ZArith QArith Reals Bool Lia.
From Verif Require Import Common ChainModel ChainSpec ChainProofs ChainProps WholeModel WholeSpec WholeProofs WholeProps LongSpec LongProofs LongWhole.
Import ListNotations.
Local Open Scope nat_scope.

(** The decisions about all surfaces but the last min - 1 located in a recording, and the
    surfaces written among them, are the same if more is recorded after it, whatever that is. *)
Theorem C132_decisions : forall cf o o' cancel xs ys, same_before (length xs) o o' ->
  let s := final (run cf o cancel xs) in
  let s' := final (run cf o' cancel (xs ++ ys)) in
  let m := settled (c_min cf) s in
  firstn m (w_done (s_out s')) = firstn m (w_done (s_out s)) /\
  first_surfaces m (w_l1b (s_out s')) = first_surfaces m (w_l1b (s_out s)) /\
  first_surfaces m (w_l1bs (s_out s')) = first_surfaces m (w_l1bs (s_out s)).
Proof.
  intros cf o o' cancel xs ys A s s' m. destruct (run_longer cf o o' cancel xs ys A) as [E|P].
  - fold s s' in E. rewrite E. auto.
  - fold s s' in P. apply (parted_same cf s s'); [apply run_counted|apply run_counted|exact P].
Qed.
Print Assumptions C132_decisions.

(** A run that ended by itself decided all its surfaces: all but the last min - 1 of the decisions
    stay. *)
Theorem C132_ended : forall cf o o' cancel xs ys s, same_before (length xs) o o' -> run cf o cancel xs = OEnd s false ->
  let m := length (w_done (s_out s)) - (c_min cf - 1) in
  let s' := final (run cf o' cancel (xs ++ ys)) in
  firstn m (w_done (s_out s')) = firstn m (w_done (s_out s)).
Proof.
  intros cf o o' cancel xs ys s A E. destruct (C132_decisions cf o o' cancel xs ys A) as (H & _). rewrite E in H. cbn [final] in H.
  destruct (C08_nothing_pending cf o cancel xs s E) as (Q & _).
  unfold settled, known_surfaces in H. rewrite Q, app_nil_r, map_length in H. exact H.
Qed.
Print Assumptions C132_ended.

(** The same with the geometry: also the positions, the stacks with their angles and the looks of
    these products are the same. *)
Theorem C132_products : forall u cancel xs ys, fuel_enough u (xs ++ ys) ->
  let w := wfinal (whole u cancel xs) in
  let w' := wfinal (whole u cancel (xs ++ ys)) in
  let m := settled (c_min (u_cf u)) (x_s w) in
  firstn m (w_done (s_out (x_s w'))) = firstn m (w_done (s_out (x_s w))) /\
  first_products m (x_out w') = first_products m (x_out w).
Proof.
  intros u cancel xs ys F w w' m. pose proof (whole_counted u cancel xs (fuel_less u xs ys F)) as C. pose proof (whole_counted u cancel (xs ++ ys) F) as C'.
  fold w in C. fold w' in C'. destruct (whole_longer u cancel xs ys F) as [E|P].
  - fold w w' in E. rewrite E. split; reflexivity.
  - destruct P as (w0 & SH & C0 & T & G & G' & N & P & P' & FP). fold w in G, N, P. fold w' in G', P'.
    assert (L : m <= length (w_done (s_out (x_s w0)))).
    { unfold m, settled. rewrite (known_next _ _ C), N, <- (known_next _ _ C0). unfold known_surfaces. rewrite app_length, map_length. lia. }
    destruct (first_same _ m (x_s w0) (x_s w) C T G L) as (E1 & _). destruct (first_same _ m (x_s w0) (x_s w') C' T G' L) as (E2 & _).
    split; [rewrite E1, E2; reflexivity|].
    rewrite (first_products_same u m w0 w C T G L P FP (whole_products u xs cancel)).
    apply (first_products_same u m w0 w' C' T G' L P' FP (whole_products u (xs ++ ys) cancel)).
Qed.
Print Assumptions C132_products.

(** So two recordings with a common beginning agree in the products it settles. *)
Theorem C132_common : forall u cancel xs ys zs, fuel_enough u (xs ++ ys) -> fuel_enough u (xs ++ zs) ->
  let m := settled (c_min (u_cf u)) (x_s (wfinal (whole u cancel xs))) in
  first_products m (x_out (wfinal (whole u cancel (xs ++ ys)))) = first_products m (x_out (wfinal (whole u cancel (xs ++ zs)))).
Proof.
  intros u cancel xs ys zs F F' m. destruct (C132_products u cancel xs ys F) as (_ & H). destruct (C132_products u cancel xs zs F') as (_ & H').
  fold m in H, H'. rewrite H, H'. reflexivity.
Qed.
Print Assumptions C132_common.

(** The others are not final: the first surface not settled has a larger stack if the recording goes on,
    so that the longer product does not begin with the shorter one. *)
Theorem C132_sharp : exists cf o xs ys s s' x x',
  run cf o no_cancel xs = OEnd s false /\ run cf o no_cancel (xs ++ ys) = OEnd s' false /\ no_failures o /\ all_valid (xs ++ ys) /\
  (forall j, ~ gap_at (c_gap cf) (xs ++ ys) j) /\
  nth_error (w_l1b (s_out s)) (settled (c_min cf) s) = Some x /\ nth_error (w_l1b (s_out s')) (settled (c_min cf) s) = Some x' /\
  s_counter x = s_counter x' /\ length (s_stack x) < length (s_stack x') /\ ~ prefix (w_l1b (s_out s)) (w_l1b (s_out s')).
Proof.
  exists cf3, (mk_oracle (fun _ _ => true) (fun _ _ => true) (fun _ => false) (fun _ => false) (fun _ => false) (fun _ => false)), (track 0 4), (track 4 2).
  eexists. eexists. eexists. eexists. split; [vm_compute; reflexivity|]. split; [vm_compute; reflexivity|].
  split; [repeat split|]. split; [apply tracks_valid|]. split.
  { intros j (t & t0 & H1 & H2 & H3). destruct j as [|[|[|[|[|[|j]]]]]]; vm_compute in H1, H2; try discriminate; try (destruct j; discriminate);
      injection H1 as <-; injection H2 as <-; apply H3; vm_compute; reflexivity. }
  split; [vm_compute; reflexivity|]. split; [vm_compute; reflexivity|]. split; [reflexivity|]. split; [cbn; lia|].
  intros (r & E). vm_compute in E. discriminate E.
Qed.
Print Assumptions C132_sharp.

(** Non-vacuity: six records, and the same with six more; a single record with geometry that settles its
    surface at once. *)
Example C132_example : 
  settled (c_min cf3) (final (run cf3 o_near no_cancel (track 0 6))) = 4 /\
  map (fun x => (s_counter (fst x), snd x, bursts_of (fst x))) (w_done (s_out (final (run cf3 o_near no_cancel (track 0 6))))) =
    [(0, true, [0; 1]); (1, true, [0; 1; 2]); (2, true, [1; 2; 3]); (3, true, [3; 4]); (4, true, [4; 5]); (5, false, [5])] /\
  map (fun x => (s_counter (fst x), snd x, bursts_of (fst x))) (w_done (s_out (final (run cf3 o_near no_cancel (track 0 6 ++ track 6 2))))) =
    [(0, true, [0; 1]); (1, true, [0; 1; 2]); (2, true, [1; 2; 3]); (3, true, [3; 4]); (4, true, [4; 5]); (5, true, [5; 6]);
     (6, true, [6; 7]); (7, false, [7])].
Proof. vm_compute. repeat split. Qed.
Example C132_geometry : exists p, first_products (settled (c_min (u_cf e_u)) (x_s (wfinal (whole e_u (fun _ => false) e_in))))
  (x_out (wfinal (whole e_u (fun _ => false) (e_in ++ e_in)))) = [p] /\ pr_bursts p = [0].
Proof.
  assert (N : fuel_enough e_u (e_in ++ e_in)).
  { destruct C122_example as (F & _). intros r I. apply F. apply in_app_or in I. destruct I; assumption. }
  destruct C122_example as (_ & _ & w & p & W & O & NU & _ & B & _ & _).
  exists p. destruct (C132_products e_u (fun _ => false) e_in e_in N) as (_ & H). rewrite H, W. cbn [wfinal]. rewrite O.
  split; [|exact B]. unfold first_products. cbn [filter]. rewrite NU.
  pose proof (whole_counted e_u (fun _ => false) e_in (fuel_less _ _ _ N)) as (_ & C & _). pose proof (whole_products e_u e_in (fun _ => false)) as P.
  rewrite W in C, P. cbn [wfinal] in C, P. rewrite O in P.
  assert (K : 1 <= length (known_surfaces (x_s w))).
  { unfold known_surfaces. rewrite app_length, map_length. destruct C as [C|(x & r & Q & _)]; [|rewrite Q; cbn; lia].
    rewrite C in P. unfold ChainInv.kept in P. destruct (w_done (s_out (x_s w))); [inversion P|cbn; lia]. }
  unfold settled. change (c_min (u_cf e_u)) with 1. destruct (Nat.ltb_spec 0 (length (known_surfaces (x_s w)) - (1 - 1))); [reflexivity|lia].
Qed.
