(** Every quantity is set before it is used, and no surface is marked by the
    one before. *)
From Coq Require Import List String Bool Permutation PeanoNat.
From Verif Require Import SchModel PktModel FlowModel FlowSpec FlowProofs.
Import ListNotations.
Local Open Scope string_scope.
Local Open Scope list_scope.

Section Any.
Variable V : Type.

(** * C113 *)

(** The attributes listed in the specification are those the steps and the
    writers read. *)
Lemma needed_all : forallb (fun k => mem k burst_needed)
  (derived_all burst_derived (flat_map t_stack surface_steps ++
     flat_map written_burst [ext_product; std_product; l1bs_product])) = true.
Proof. vm_compute. reflexivity. Qed.

Lemma burst_ends : forall (f : calc V) o b, has_all b burst_values ->
  exists o' b', burst_life f o b = Ok (o', b') /\ has_all b' burst_needed.
Proof.
  intros f o b Hb. unfold burst_life.
  assert (Ho : forall o : objects V, objs V (fun _ => []) o) by (intros o0 n k []).
  assert (Hn : forall ts, bursts_ok V [] ts) by (intros ts x t []).
  destruct (avails burst_derived burst_readonly (fun _ => []) [s_position; s_doppler] burst_values) as [l1|] eqn:E1;
    [|vm_compute in E1; discriminate].
  destruct (execs_avails V burst_derived burst_readonly f [] (fun _ => []) _ o b _ l1 (Ho o) (Hn _) Hb E1)
    as (o1 & b1 & R1 & _ & H1). rewrite R1. cbn [bind].
  destruct (avails burst_derived burst_readonly (fun _ => []) [s_cal1; s_cal2] l1) as [l2|] eqn:E2;
    [|vm_compute in E1; injection E1 as <-; vm_compute in E2; discriminate].
  destruct (execs_avails V burst_derived burst_readonly f [] (fun _ => []) _ o1 b1 _ l2 (Ho o1) (Hn _) H1 E2)
    as (o2 & b2 & R2 & _ & H2). rewrite R2. cbn [bind snd].
  destruct (proj2 (read_all_ok V b2 (derived_all burst_derived burst_locating))) as (v & R3).
  { intros k Hk. apply H2. apply mem_In.
    assert (G : forallb (fun k => mem k l2) (derived_all burst_derived burst_locating) = true).
    { vm_compute in E1; injection E1 as <-; vm_compute in E2; injection E2 as <-. vm_compute. reflexivity. }
    rewrite forallb_forall in G. apply G. exact Hk. }
  rewrite R3. cbn [bind].
  destruct (avails burst_derived burst_readonly (fun _ => []) [s_beams; s_azimuth] l2) as [l3|] eqn:E3;
    [|vm_compute in E1; injection E1 as <-; vm_compute in E2; injection E2 as <-; vm_compute in E3; discriminate].
  destruct (execs_avails V burst_derived burst_readonly f [] (fun _ => []) _ o2 b2 _ l3 (Ho o2) (Hn _) H2 E3)
    as (o3 & b3 & R4 & _ & H3). exists o3, b3. split; [exact R4|].
  intros k Hk. apply H3. apply mem_In.
  assert (G : forallb (fun k => mem k l3) burst_needed = true).
  { vm_compute in E1; injection E1 as <-; vm_compute in E2; injection E2 as <-; vm_compute in E3; injection E3 as <-.
    vm_compute. reflexivity. }
  rewrite forallb_forall in G. apply G. exact Hk.
Qed.
End Any.

(** The steps that make a burst never lack an attribute, and leave everything
    later read from it. *)
Theorem C113_burst_attributes : forall V (f : calc V) (o : objects V) (b : store V),
  has_all b burst_values ->
  exists o' b', burst_life f o b = Ok (o', b') /\ has_all b' burst_needed.
Proof. intros. apply burst_ends. assumption. Qed.
Print Assumptions C113_burst_attributes.

Lemma pick_ok : forall V (a : store V) ks, has_all a ks ->
  exists l, pick a ks = Ok l /\ map fst l = ks.
Proof.
  intros V a ks. induction ks as [|k r IH]; intros H; simpl.
  - exists []. auto.
  - destruct (H k (or_introl eq_refl)) as (v & E). rewrite E.
    destruct IH as (l & R & M); [intros x Hx; apply H; right; exact Hx|].
    rewrite R. simpl. exists ((k, v) :: l). simpl. rewrite M. auto.
Qed.
Lemma set_values_ok : forall V d (l : list (string * V)) s, forallb (fun k => mem k d) (map fst l) = true ->
  exists s', set_values d l s = Ok s' /\ forall k, has s' k <-> In k (map fst l) \/ has s k.
Proof.
  intros V d l. induction l as [|[k v] r IH]; intros s H; simpl in *.
  - exists s. split; [reflexivity|]. tauto.
  - apply andb_prop in H. destruct H as [M H]. rewrite M.
    destruct (IH (put k v s) H) as (s' & R & Q). exists s'. split; [exact R|].
    intros x. rewrite Q, put_has. intuition (subst; auto).
Qed.
Lemma create_ok : forall V (null nil dist : V) focus first g a, has_all a location_keys ->
  exists s, create null nil dist focus first g a = Ok s /\
    has_exactly s (location_entries focus ++
      ["surface_type"; "stack_all_beams_indices"; "stack_all_beams_indices_abs"; "stack_all_bursts"]).
Proof.
  intros V null nil dist focus first g a Ha. unfold create.
  destruct (pick_ok V (located first g a) location_keys) as (l & P & M).
  { intros k Hk. unfold located. apply put_all_has. right. apply Ha. exact Hk. }
  rewrite P. cbn [bind]. unfold new_surface_data.
  destruct (set_values_ok V surface_attributes (l ++ (if focus then [("focus_target_distance", dist)] else []))
    (put "stack_all_bursts" nil (put "stack_all_beams_indices_abs" nil (put "stack_all_beams_indices" nil
      (put "surface_type" null empty))))) as (s & R & Q).
  { rewrite map_app, M. destruct focus; vm_compute; reflexivity. }
  exists s. split; [exact R|]. intros k. rewrite Q, !put_has, map_app, M. unfold location_entries.
  rewrite !in_app_iff.
  assert (E : ~ has (@empty V) k) by (intros (v & X); discriminate).
  assert (F : map fst (if focus then [("focus_target_distance", dist)] else []) =
              if focus then ["focus_target_distance"] else []) by (destruct focus; reflexivity).
  rewrite F. cbn [In]. clear - E.
  generalize (In k location_keys), (In k (if focus then ["focus_target_distance"] else [])). intros A B.
  split.
  - intros [H|[H|[H|[H|[H|H]]]]]; subst; tauto.
  - intros [H|[H|[H|[H|[H|[]]]]]]; subst; tauto.
Qed.

(** A surface, from its creation to its record, whatever the algorithms
    compute and whether or not focusing is on, never lacks an attribute. *)
Theorem C113_surface_attributes : forall V (f : calc V) p (null nil dist : V) focus first g
    (a : store V) (o : objects V) (bs : list (store V)),
  In p [ext_product; std_product; l1bs_product] ->
  has_all a location_keys -> constructed o -> (forall b, In b bs -> has_all b burst_needed) ->
  succeeds (life f p null nil dist focus first g a o bs).
Proof.
  intros V f p null nil dist focus first g a o bs Hp Ha Ho Hb. unfold life.
  destruct (create_ok V null nil dist focus first g a Ha) as (s0 & R0 & H0). rewrite R0. cbn [bind].
  assert (Hx : objs V gather_extra o).
  { intros n k Hk. unfold gather_extra in Hk. destruct (String.eqb_spec n "stack_gathering") as [->|N]; [|contradiction].
    destruct Hk as [<-|[]]. exact Ho. }
  assert (Hs0 : has_all s0 (location_entries focus ++
      ["surface_type"; "stack_all_beams_indices"; "stack_all_beams_indices_abs"; "stack_all_bursts"]))
    by (intros k Hk; apply H0; exact Hk).
  remember (location_entries focus ++
      ["surface_type"; "stack_all_beams_indices"; "stack_all_beams_indices_abs"; "stack_all_bursts"]) as l0 eqn:L0.
  destruct (avails surface_derived surface_readonly gather_extra creation_steps l0) as [l1|] eqn:E1;
    [|subst l0; destruct focus; vm_compute in E1; discriminate].
  destruct (execs_avails V surface_derived surface_readonly f [] gather_extra creation_steps o s0 l0 l1 Hx)
    as (o1 & s1 & R1 & Hx1 & Hs1); [intros x t []|exact Hs0|exact E1|]. rewrite R1. cbn [bind snd].
  destruct (proj2 (read_all_ok V s1 (derived_all surface_derived (surface_locating focus ++ surface_beams))))
    as (v1 & R2).
  { intros k Hk. apply Hs1. apply mem_In.
    assert (G : forallb (fun k => mem k l1) (derived_all surface_derived (surface_locating focus ++ surface_beams)) = true).
    { subst l0. destruct focus; vm_compute in E1; injection E1 as <-; vm_compute; reflexivity. }
    rewrite forallb_forall in G. apply G. exact Hk. }
  rewrite R2. cbn [bind].
  assert (NA : forall k, In k (derived_all burst_derived (flat_map t_stack surface_steps ++
     flat_map written_burst [ext_product; std_product; l1bs_product])) -> In k burst_needed).
  { intros k Hk. apply mem_In. pose proof needed_all as G. rewrite forallb_forall in G. apply G. exact Hk. }
  assert (Hbs : bursts_ok V bs surface_steps).
  { intros b t Hin Ht k Hk. apply (Hb b Hin). apply NA. unfold derived_all in *.
    rewrite flat_map_app. apply in_or_app. left. apply in_flat_map in Hk. destruct Hk as (x & X1 & X2).
    apply in_flat_map. exists x. split; [|exact X2]. apply in_flat_map. exists t. auto. }
  destruct (avails surface_derived surface_readonly gather_extra surface_steps l1) as [l2|] eqn:E2;
    [|subst l0; destruct focus; vm_compute in E1; injection E1 as <-; vm_compute in E2; discriminate].
  destruct (execs_avails V surface_derived surface_readonly f bs gather_extra surface_steps o1 s1 l1 l2 Hx1 Hbs Hs1 E2)
    as (o2 & s2 & R3 & Hx2 & Hs2). rewrite R3. cbn [bind snd].
  destruct (proj2 (read_all_ok V s2 (derived_all surface_derived (written_surface p)))) as (v2 & R4).
  { intros k Hk. apply Hs2. apply mem_In.
    assert (G : forallb (fun k => mem k l2) (derived_all surface_derived (written_surface p)) = true).
    { subst l0. destruct focus; vm_compute in E1; injection E1 as <-; vm_compute in E2; injection E2 as <-;
      simpl in Hp; repeat (destruct Hp as [<-|Hp]; [vm_compute; reflexivity|]); contradiction. }
    rewrite forallb_forall in G. apply G. exact Hk. }
  rewrite R4. cbn [bind].
  destruct (proj2 (read_each_ok V bs (derived_all burst_derived (written_burst p)))) as (v3 & R5).
  { intros b Hin k Hk. apply (Hb b Hin). apply NA. unfold derived_all in *.
    rewrite flat_map_app. apply in_or_app. right. apply in_flat_map in Hk. destruct Hk as (x & X1 & X2).
    apply in_flat_map. exists x. split; [|exact X2]. apply in_flat_map. exists p. auto. }
  rewrite R5. eexists. reflexivity.
Qed.
Print Assumptions C113_surface_attributes.

(** The six steps work in exactly four orders: stack gathering, geometry
    corrections, range compression, masking, multilooking, with the sigma-0
    scaling anywhere after the geometry corrections. *)
Theorem C113_orders : forall V (f : calc V) focus (o : objects V) s bs ts,
  has_exactly s (created_keys focus) -> constructed o -> (forall b, In b bs -> has_all b burst_needed) ->
  Permutation surface_steps ts ->
  (succeeds (execs surface_derived surface_readonly f bs ts (o, s)) <-> In ts good_orders).
Proof.
  intros V f focus o s bs ts Hs Ho Hb P.
  assert (Hx : objs V gather_extra o).
  { intros n k Hk. unfold gather_extra in Hk. destruct (String.eqb_spec n "stack_gathering") as [->|N]; [|contradiction].
    destruct Hk as [<-|[]]. exact Ho. }
  assert (I : incl ts surface_steps) by (intros t Ht; eapply Permutation_in; [symmetry; exact P|exact Ht]).
  assert (Hbs : bursts_ok V bs ts).
  { intros b t Hin Ht k Hk. apply (Hb b Hin). apply mem_In. pose proof needed_all as G.
    rewrite forallb_forall in G. apply G. unfold derived_all in *.
    rewrite flat_map_app. apply in_or_app. left. apply in_flat_map in Hk. destruct Hk as (x & X1 & X2).
    apply in_flat_map. exists x. split; [|exact X2]. apply in_flat_map. exists t. auto. }
  pose proof (by_name_of ts I) as B.
  pose proof (orders_checked focus) as C. rewrite forallb_forall in C.
  specialize (C (map t_alg ts)). cbv beta in C.
  assert (C' := C (perms_complete _ _ _ (Permutation_map t_alg P))). clear C.
  destruct (names_in (map t_alg ts)) eqn:N.
  - assert (G : In ts good_orders).
    { unfold names_in in N. apply existsb_exists in N. destruct N as (m & M1 & M2).
      destruct (list_eq_dec string_dec (map t_alg ts) m) as [E|]; [|discriminate]. subst m.
      unfold order_names in M1. apply in_map_iff in M1. destruct M1 as (u & U1 & U2).
      assert (Iu : incl u surface_steps).
      { unfold good_orders in U2. simpl in U2.
        repeat (destruct U2 as [<-|U2]; [intros x Hx'; simpl in Hx' |- *; tauto|]). contradiction. }
      rewrite B, <- U1, <- (by_name_of u Iu). exact U2. }
    split; [intros _; exact G|intros _].
    unfold runs in C'. rewrite <- B in C'.
    destruct (avails surface_derived surface_readonly gather_extra ts (created_keys focus)) as [l'|] eqn:E; [|discriminate].
    destruct (execs_avails V surface_derived surface_readonly f bs gather_extra ts o s _ l' Hx Hbs
      (fun k Hk => proj2 (Hs k) Hk) E) as (o' & s' & R & _). eexists. exact R.
  - split.
    + intros S. exfalso. rewrite <- B in C'.
      exact (execs_lacks V surface_derived surface_readonly f bs ts o s _ Hs C' S).
    + intros G. exfalso. unfold good_orders in G. simpl in G.
      repeat (destruct G as [<-|G]; [vm_compute in N; discriminate|]). contradiction.
Qed.
Print Assumptions C113_orders.

(** * C114 *)

(** With at least one burst in its stack, what a surface is given depends on
    the surface and its bursts alone, not on what the algorithm objects hold. *)
Theorem C114_no_memory : forall V (f : calc V) (o o' : objects V) bs s, bs <> [] ->
  agree (execs surface_derived surface_readonly f bs surface_steps (o, s))
        (execs surface_derived surface_readonly f bs surface_steps (o', s)).
Proof.
  intros V f o o' bs s Hb. apply execs_same; [exact Hb|vm_compute; reflexivity|]. intros k. reflexivity.
Qed.
Print Assumptions C114_no_memory.

(** So each surface of a pass is as if it had been processed alone, by new
    algorithm objects. *)
Theorem C114_as_alone : forall V (f : calc V) (o o0 : objects V) l rs,
  (forall bs s, In (bs, s) l -> bs <> []) -> process f o l = Ok rs ->
  Forall2 (fun x r => exists o1 r1,
    execs surface_derived surface_readonly f (fst x) surface_steps (o0, snd x) = Ok (o1, r1) /\ same_store r r1) l rs.
Proof.
  intros V f o o0 l. revert o. induction l as [|[bs s] r IH]; intros o rs Hb H; cbn [process] in H.
  - injection H as <-. constructor.
  - pose proof (C114_no_memory V f o o0 bs s (Hb bs s (or_introl eq_refl))) as A.
    destruct (execs surface_derived surface_readonly f bs surface_steps (o, s)) as [[o1 s1]|e1] eqn:E1; [|discriminate].
    cbn [bind fst snd] in H.
    destruct (process f o1 r) as [l1|] eqn:E2; [|discriminate]. cbn [bind] in H. injection H as <-.
    constructor.
    + cbn [fst snd].
      destruct (execs surface_derived surface_readonly f bs surface_steps (o0, s)) as [[o2 s2]|e2];
        simpl in A; [|contradiction]. exists o2, s2. split; [reflexivity|exact A].
    + apply (IH o1 l1); [|exact E2]. intros bs' s' Hin. apply (Hb bs' s'). right. exact Hin.
Qed.
Print Assumptions C114_as_alone.

(** A surface seen by no burst gets every result of the stack gathering from its
    own data, except the index of the closest burst. *)
Theorem C114_empty_stack_partial : forall V (f : calc V) (o o' : objects V) s, constructed o -> constructed o' ->
  match exec surface_derived surface_readonly f [] s_gather (o, s),
        exec surface_derived surface_readonly f [] s_gather (o', s) with
  | Ok (_, r), Ok (_, r') => same_but "closest_burst_index" r r'
  | Err e, Err e' => e = e'
  | _, _ => False
  end.
Proof.
  intros V f o o' s Ho Ho'. unfold exec.
  destruct (read_all s (derived_all surface_derived (t_own s_gather))) as [own|e]; cbn [bind]; [|reflexivity].
  cbn [read_each bind].
  set (g := f (t_alg s_gather) own []).
  pose proof (copy_all_but V "closest_burst_index" surface_readonly
    (put_all g (t_always s_gather) (o (t_alg s_gather))) (put_all g (t_always s_gather) (o' (t_alg s_gather)))
    (t_copy s_gather) s s) as C.
  destruct (copy_all surface_readonly _ (t_copy s_gather) s) as [r|e];
    destruct (copy_all surface_readonly _ (t_copy s_gather) s) as [r'|e'] in C |- *; cbn [bind];
    apply C; clear C; (try (intros k _; reflexivity)); intros k y Hin;
    (destruct (mem y (t_always s_gather)) eqn:M;
     [apply mem_In in M;
      repeat split;
        [apply put_all_has; left; exact M|apply put_all_has; left; exact M|
         intros _; rewrite !put_all_get by exact M; reflexivity]
     |]);
    (assert (Q : k = "closest_burst_index" /\ y = "closest_burst_index");
     [unfold s_gather in Hin; cbn [t_copy same map] in Hin;
      repeat (destruct Hin as [Hin|Hin]; [injection Hin as <- <-; try (vm_compute in M; discriminate); split; reflexivity|]);
      contradiction
     |destruct Q as [-> ->]; repeat split;
        [apply put_all_has; right; exact Ho|apply put_all_has; right; exact Ho'|intros N; exfalso; apply N; reflexivity]]).
Qed.
Print Assumptions C114_empty_stack_partial.

(** The index it is given instead is that of the surface before. *)
Theorem C114_empty_stack_refuted : exists (f : calc nat) (o o' : objects nat) (s : store nat),
  constructed o /\ constructed o' /\ exists o1 r o1' r',
    exec surface_derived surface_readonly f [] s_gather (o, s) = Ok (o1, r) /\
    exec surface_derived surface_readonly f [] s_gather (o', s) = Ok (o1', r') /\
    r "closest_burst_index" <> r' "closest_burst_index".
Proof.
  set (s0 := put "stack_all_bursts" 0 (put "stack_all_beams_indices" 0 (put "stack_all_beams_indices_abs" 0 empty))).
  exists (fun _ _ _ _ => 0), (fun _ => put "closest_burst_index" 0 empty), (fun _ => put "closest_burst_index" 7 empty), s0.
  split; [exists 0; reflexivity|]. split; [exists 7; reflexivity|].
  eexists. eexists. eexists. eexists. split; [reflexivity|]. split; [reflexivity|].
  vm_compute. discriminate.
Qed.
Print Assumptions C114_empty_stack_refuted.

(** A surface located between two bursts is described by them alone. *)
Theorem C114_located : forall V (null nil dist : V) focus g (a a' : store V),
  has_all a location_keys -> has_all a' location_keys ->
  exists s s', create null nil dist focus false g a = Ok s /\ create null nil dist focus false g a' = Ok s' /\
    same_store s s'.
Proof.
  intros V null nil dist focus g a a' Ha Ha'.
  destruct (create_ok V null nil dist focus false g a Ha) as (s & R & _).
  destruct (create_ok V null nil dist focus false g a' Ha') as (s' & R' & _).
  exists s, s'. split; [exact R|]. split; [exact R'|].
  assert (E : forall ks, forallb (fun k => mem k next_results) ks = true ->
    pick (located false g a) ks = pick (located false g a') ks).
  { intros ks. unfold located. generalize next_results. intros nr. clear.
    induction ks as [|k r IH]; intros H; [reflexivity|]. cbn [forallb] in H. apply andb_prop in H.
    destruct H as [M H]. apply mem_In in M. cbn [pick]. rewrite !put_all_get by exact M.
    rewrite IH by exact H. reflexivity. }
  unfold create in R, R'. rewrite (E location_keys) in R by (vm_compute; reflexivity).
  rewrite R in R'. injection R' as <-. intros k. reflexivity.
Qed.
Print Assumptions C114_located.

(** The first surface of a pass, or after a gap, keeps the reference of the UTC
    time and the length of the day of the surface located before it. *)
Definition kept_from_before : list string := ["prev_tai"; "prev_utc_days"; "prev_utc_secs"; "curr_day_length"].
Theorem C114_first_surface_refuted : forall V (null nil dist : V) focus g (a : store V),
  has_all a location_keys ->
  exists s, create null nil dist focus true g a = Ok s /\
    (forall k, In k kept_from_before -> s k = a k) /\
    (forall k, In k location_keys -> ~ In k kept_from_before -> s k = Some (g k)).
Proof.
  intros V null nil dist focus g a Ha.
  destruct (create_ok V null nil dist focus true g a Ha) as (s & R & _). exists s. split; [exact R|].
  unfold create in R.
  destruct (pick (located true g a) location_keys) as [l|] eqn:P; [|discriminate]. cbn [bind] in R.
  unfold new_surface_data in R.
  assert (X : forall k, In k location_keys -> s k = located true g a k).
  { assert (PK : forall ks l, pick (located true g a) ks = Ok l -> map fst l = ks /\
       (forall k v, In (k, v) l -> located true g a k = Some v)).
    { intros ks. induction ks as [|k r IH]; intros l0 H; cbn [pick] in H.
      - injection H as <-. split; [reflexivity|intros k v []].
      - destruct (located true g a k) eqn:L; [|discriminate].
        destruct (pick (located true g a) r) eqn:Pr; [|discriminate]. cbn [bind] in H. injection H as <-.
        destruct (IH _ eq_refl) as [M V0]. split; [simpl; rewrite M; reflexivity|].
        intros k' v' [Q|Q]; [injection Q as <- <-; exact L|apply V0; exact Q]. }
    destruct (PK _ _ P) as [M VV]. clear PK.
    assert (SV : forall d (l : list (string * V)) s0 s1, set_values d l s0 = Ok s1 ->
      forall k, (In k (map fst l) -> exists v, In (k, v) l /\ s1 k = Some v) /\ (~ In k (map fst l) -> s1 k = s0 k)).
    { clear. intros d l. induction l as [|[k v] r IH]; intros s0 s1 H x; cbn [set_values] in H.
      - injection H as <-. split; [intros []|reflexivity].
      - destruct (mem k d); [|discriminate]. destruct (IH _ _ H x) as [A B]. split.
        + intros I. destruct (in_dec string_dec x (map fst r)) as [J|N].
          * destruct (A J) as (w & W1 & W2). exists w. split; [right; exact W1|exact W2].
          * destruct I as [I|I]; [|contradiction]. simpl in I. subst x. exists v. split; [left; reflexivity|].
            rewrite B by exact N. apply put_same.
        + intros N. rewrite B by (intros I; apply N; right; exact I). unfold put.
          destruct (String.eqb_spec x k) as [->|]; [exfalso; apply N; left; reflexivity|reflexivity]. }
    intros k Hk. destruct (SV _ _ _ _ R k) as [A _].
    destruct A as (v & W1 & W2).
    { rewrite map_app, M. apply in_or_app. left. exact Hk. }
    rewrite W2. symmetry. apply in_app_or in W1. destruct W1 as [W1|W1]; [apply VV; exact W1|].
    destruct focus; [|contradiction]. destruct W1 as [W1|[]]. injection W1 as <- _.
    exfalso. revert Hk. apply mem_not. vm_compute. reflexivity. }
  split.
  - intros k Hk. rewrite X.
    + unfold located. apply put_all_other. apply mem_not. destruct Hk as [<-|[<-|[<-|[<-|[]]]]]; vm_compute; reflexivity.
    + apply mem_In. destruct Hk as [<-|[<-|[<-|[<-|[]]]]]; vm_compute; reflexivity.
  - intros k Hk N. rewrite X by exact Hk. unfold located. apply put_all_get. apply mem_In.
    assert (G : forallb (fun k => mem k first_results || mem k kept_from_before) location_keys = true)
      by (vm_compute; reflexivity).
    rewrite forallb_forall in G. specialize (G k Hk). apply orb_prop in G. destruct G as [G|G]; [exact G|].
    apply mem_In in G. contradiction.
Qed.
Print Assumptions C114_first_surface_refuted.

(** Values that name where they come from: the surface and the bursts of the
    theorems exist. *)
Definition tag (n : string) (own : list string) (st : list (list string)) (k : string) : string := n.
Definition b_given : store string := put_all (fun k => k) burst_values empty.
Definition o_given : objects string := fun _ => put "closest_burst_index" "none" empty.
Definition a_given : store string := put_all (fun k => "initial") location_keys empty.
Definition b_made : store string :=
  match burst_life tag o_given b_given with Ok (_, b) => b | Err _ => empty end.
Example C113_example :
  has_all b_given burst_values /\ has_all b_made burst_needed /\
  b_made "beams_focused" = Some "azimuth_processing" /\
  match life tag ext_product "null" "nil" "0" false false (fun k => "located") a_given o_given [b_made; b_made] with
  | Ok (_, s) => map s ["time_surf"; "beams_surf"; "beams_geo_corr"; "waveform_multilooked"; "sigma0_scaling_factor"] =
      [Some "located"; Some "stack_gathering"; Some "geometry_corrections"; Some "multilooking"; Some "sigma_zero_scaling"]
  | Err _ => False
  end.
Proof.
  assert (A : has_all b_given burst_values) by (intros k Hk; apply put_all_has; left; exact Hk).
  split; [exact A|]. split.
  - destruct (C113_burst_attributes string tag o_given b_given A) as (o' & b' & R & H).
    unfold b_made. rewrite R. exact H.
  - split; vm_compute; reflexivity.
Qed.
(** Without the stack gathering, or in another order, an attribute is missing. *)
Example C113_missing :
  (match execs surface_derived surface_readonly tag [b_made] (tl surface_steps)
      (o_given, put "win_delay_surf" "x" empty) with
   | Err e => e = ENoKey "data_stack_size" | Ok _ => False end) /\
  burst_life tag o_given (put_all (fun k => k) ["lat_sar_sat"; "lon_sar_sat"] empty) = Err (ENoKey "alt_sar_sat").
Proof. split; vm_compute; reflexivity. Qed.
(** The time reference of a surface cannot be assigned, only given to the
    constructor; a name the class does not have is refused there. *)
Example C113_errors :
  assign surface_readonly "prev_tai" "x" (@empty string) = Err (EReadonly "prev_tai") /\
  new_surface_data "null" "nil" [("prev_tai", "x"); ("look_index_surf", "y")] = Err (EUndeclared "look_index_surf") /\
  succeeds (new_surface_data "null" "nil" [("prev_tai", "x")]) /\
  succeeds (assign surface_readonly "look_index_surf" "y" (@empty string)).
Proof. split; [reflexivity|]. split; [reflexivity|]. split; eexists; reflexivity. Qed.
Example C114_example :
  match create "null" "nil" "0" false true (fun k => "first") a_given with
  | Ok s => s "time_surf" = Some "first" /\ s "prev_tai" = Some "initial"
  | Err _ => False
  end.
Proof. vm_compute. auto. Qed.
