(** Properties C86-C89. *)
From Coq Require Import String List ZArith QArith Qreals Reals Bool Arith Lia Lra.
From Verif Require Import Common WriterModel WriterSpec WriterProofs WriterProps
  SchModel SchSpec SchProofs.
Import ListNotations.
Open Scope string_scope.

(** * C86 Every product can be opened and holds every record *)

(** Opening creates exactly the declared variables, all distinct, and every
    record of a surface with the usual shapes is accepted, whatever was
    written before. *)
Theorem C86_accepts : forall p fill_ok castable ns nl,
  In p products ->
  (forall v, In v (p_vars p) -> fill_ok v = true) ->
  (forall x v, castable x v = true) ->
  exists tbl, open_product fill_ok p ns nl = inr tbl /\
    map fst tbl = map v_name (p_vars p) /\ NoDup (map fst tbl) /\
    forall e st, shaped ns nl e ->
      fst (write_record R (fun x => find_assoc x tbl) castable st (record_of p e)) = None.
Proof.
  intros p ok castable ns nl Hp Hok Hc. exists (opened p ns nl).
  split; [rewrite open_ext by exact Hok; apply open_opened; exact Hp|].
  split; [apply opened_names|].
  split; [rewrite opened_names; apply (names_nodup p Hp)|].
  intros e st Hs. apply wr_ok. apply record_writable; assumption.
Qed.
Print Assumptions C86_accepts.

(** After any number of records, a variable has a value in every record or
    in none, and the latter are exactly those of [nevers]; the values are
    those of the keyword arguments. *)
Theorem C86_filled : forall p nv castable ns nl es,
  In (p, nv) nevers -> (forall x v, castable x v = true) -> Forall (shaped ns nl) es ->
  forall tbl, open_product (fun _ => true) p ns nl = inr tbl ->
  let final := snd (write_all R (fun x => find_assoc x tbl) castable (w_init R)
                              (map (record_of p) es)) in
  (forall v, In v (p_vars p) -> In (v_name v) nv ->
     forall i a b, w_tbl final (v_name v) i a b = None) /\
  (forall v, In v (p_vars p) -> ~ In (v_name v) nv ->
     forall i, (i < List.length es)%nat -> w_tbl final (v_name v) i 0%nat 0%nat <> None) /\
  (forall i e x s v a b r, nth_error es i = Some e -> In (x, s) (p_writes p) ->
     eval e s = Some v -> elem R v a b = Some r -> w_tbl final x i a b = Some r).
Proof.
  intros p nv castable ns nl es Hn Hc Hs tbl Ho final.
  destruct (nevers_ok p nv Hn) as [Hp F]. rewrite forallb_forall in F.
  rewrite (open_opened p ns nl Hp) in Ho. injection Ho; intro; subst tbl.
  split; [|split].
  - intros v Hv Hin i a b. apply history_never; [exact Hp|].
    specialize (F v Hv). apply memb_in in Hin. rewrite Hin in F.
    destruct (given p (v_name v)); [discriminate|reflexivity].
  - intros v Hv Hin i Hi. apply history_given; try assumption.
    specialize (F v Hv). apply memb_not in Hin. rewrite Hin in F.
    destruct (given p (v_name v)); [reflexivity|discriminate].
  - intros i e x s v a b r Hi Hin Ev Er. eapply history_value; eassumption.
Qed.
Print Assumptions C86_filled.

(** A writer can be opened once only: the first [open] consumes the
    variable definitions. *)
Theorem C86_once : forall p ns nl fill_ok, In p products -> reopen_vars fill_ok p ns nl = inl EKey.
Proof.
  intros p ns nl ok Hp. unfold reopen_vars.
  destruct (create_dims [] (p_dims p ns nl)) as [e|made] eqn:E.
  - exfalso. cbn in Hp. destruct Hp as [<-|[<-|[<-|[]]]]; vm_compute in E; discriminate.
  - assert (H : forall l done, l <> [] ->
      exists v rest, snd (create_vars ok made done l) = (v, false) :: rest).
    { intros [|[v fresh] l] done Hl; [congruence|]. cbn [create_vars].
      destruct fresh; [|eexists; eexists; reflexivity].
      destruct (dim_sizes made (v_dims v)); [|eexists; eexists; reflexivity].
      destruct (find_assoc (v_name v) done); [eexists; eexists; reflexivity|].
      destruct (ok v); [|eexists; eexists; reflexivity].
      match goal with |- context [create_vars ok made ?d l] => destruct (create_vars ok made d l) end.
      eexists; eexists; reflexivity. }
    destruct (H (map (fun v => (v, true)) (p_vars p)) []) as (v & rest & Es).
    + cbn in Hp. destruct Hp as [<-|[<-|[<-|[]]]]; discriminate.
    + rewrite Es. reflexivity.
Qed.
Print Assumptions C86_once.

(** The library refuses the dimensions already. *)
Theorem C86_once_dims : forall p ns nl made, In p products ->
  create_dims [] (p_dims p ns nl) = inr made ->
  create_dims made (p_dims p ns nl) = inl ELibrary.
Proof.
  intros p ns nl made Hp E. cbn in Hp.
  destruct Hp as [<-|[<-|[<-|[]]]]; vm_compute in E; injection E; intros <-; vm_compute; reflexivity.
Qed.
Print Assumptions C86_once_dims.

(** Fill values fit their type, except that of the L1BS beam form. *)
Definition fill_fitsb (v : vdecl) : bool :=
  match v_fill v with
  | None => true
  | Some q => negb (is_int (v_type v)) ||
              (Qeq_bool q (inject_Z (Qnum q)) &&
               (tmin (v_type v) <=? Qnum q)%Z && (Qnum q <=? tmax (v_type v))%Z)
  end.
Theorem C86_fill_partial : forall p v, In p products -> In v (p_vars p) ->
  v_name v <> "beam_form_l1bs_echo_sar_ku" -> fill_fits v.
Proof.
  intros p v Hp Hv Hn.
  assert (F : forallb (fun v => (v_name v =? "beam_form_l1bs_echo_sar_ku") || fill_fitsb v) (p_vars p) = true).
  { cbn in Hp. destruct Hp as [<-|[<-|[<-|[]]]]; vm_compute; reflexivity. }
  rewrite forallb_forall in F. specialize (F v Hv). apply orb_true_iff in F.
  destruct F as [F|F]; [apply String.eqb_eq in F; congruence|].
  unfold fill_fitsb in F. unfold fill_fits. destruct (v_fill v) as [q|]; [|exact I].
  intro Hi. rewrite Hi in F. cbn [negb orb] in F.
  apply andb_true_iff in F. destruct F as [F F3]. apply andb_true_iff in F. destruct F as [F1 F2].
  exists (Qnum q). apply Qeq_bool_iff in F1. apply Z.leb_le in F2, F3. auto.
Qed.
Print Assumptions C86_fill_partial.

Theorem C86_fill_refuted : exists v, In v (p_vars l1bs_product) /\
  v_name v = "beam_form_l1bs_echo_sar_ku" /\ ~ fill_fits v.
Proof.
  exists (mkv "beam_form_l1bs_echo_sar_ku" U8 ["time_l1bs_echo_sar_ku"]
      (Some "percent") (Some (1 # 100)%Q) (Some (0 # 1)%Q) (Some (65535 # 1)%Q)).
  split; [|split; [reflexivity|]].
  - assert (E : decl_of l1bs_product "beam_form_l1bs_echo_sar_ku" =
      Some (mkv "beam_form_l1bs_echo_sar_ku" U8 ["time_l1bs_echo_sar_ku"]
      (Some "percent") (Some (1 # 100)%Q) (Some (0 # 1)%Q) (Some (65535 # 1)%Q)))
      by (vm_compute; reflexivity).
    unfold decl_of in E. apply find_some in E. apply E.
  - unfold fill_fits. cbn [v_fill v_type is_int]. intro H. destruct (H eq_refl) as (n & E & B).
    cbn in B. unfold Qeq in E. cbn in E. lia.
Qed.
Print Assumptions C86_fill_refuted.

(** A surface of the usual shape exists. *)
Definition ex_env : env :=
  {| e_surf := fun f => if memb f stack_vectors then VVec 1 (fun _ => 0%R)
                        else if (f =? "waveform_multilooked") then VVec 2 (fun _ => 1%R)
                        else if (f =? "roll_sat") then VNum 1%R
                        else VNum 0%R;
     e_burst := fun f => if (f =? "surf_type") then VNum 3%R else VNum 0%R;
     e_local := fun f => if memb f stack_matrices then VMat 1 2 (fun _ _ => 0%R) else VNum 0%R;
     e_light := 3%R |}.
Example C86_example : shaped 2 1 ex_env.
Proof.
  split; [|split; [|split; [|split; [|split]]]]; unfold ex_env; cbn [e_surf e_burst e_local].
  - intros f H. apply memb_in in H. rewrite H. do 2 eexists. split; [reflexivity|lia].
  - cbn. do 2 eexists. split; [reflexivity|lia].
  - intros f H1 H2. apply memb_not in H1. rewrite H1. apply String.eqb_neq in H2. rewrite H2.
    destruct (f =? "roll_sat"); eexists; reflexivity.
  - intros f. destruct (f =? "surf_type"); eexists; reflexivity.
  - intros f H. apply memb_in in H. rewrite H. do 3 eexists. split; [reflexivity|lia].
  - intros f H. apply memb_not in H. rewrite H. eexists; reflexivity.
Qed.
Example C86_written_example : exists tbl, open_product (fun _ => true) l1bs_product 2 1 = inr tbl /\
  w_tbl (snd (write_all R (fun x => find_assoc x tbl) (fun _ _ => true) (w_init R)
    [record_of l1bs_product ex_env])) "roll_sat_pointing_l1bs_echo_sar_ku" 0 0 0 = Some 1%R.
Proof. eexists. split; [apply open_opened; cbn; tauto|]. vm_compute. reflexivity. Qed.

(** * C87 Physical values survive the packing of the products *)
Open Scope R_scope.

Theorem C87_survives_partial : forall p l x lo hi, In (p, l) ranges -> In (x, (lo, hi)) l ->
  exists v, In v (p_vars p) /\ v_name v = x /\
    forall rnd wrap r, nearest rnd -> Q2R lo <= r <= Q2R hi -> survives rnd wrap v r.
Proof.
  intros p l x lo hi Hp Hin. destruct (range_survives p l x lo hi Hp Hin) as (v & H1 & H2 & _ & H3).
  exists v. auto.
Qed.
Print Assumptions C87_survives_partial.

(** What any packed variable can hold, exactly up to the ends. *)
Theorem C87_capacity : forall rnd wrap v x, nearest rnd -> in_type wrap -> packed v = true ->
  (Q2R (cap_lo v) < x < Q2R (cap_hi v) -> survives rnd wrap v x) /\
  (survives rnd wrap v x -> Q2R (cap_lo v) <= x <= Q2R (cap_hi v)).
Proof.
  intros rnd wrap v x Hr Hw Hp. split.
  - intros [H1 H2]. apply survives_inside; assumption.
  - apply survives_capacity; assumption.
Qed.
Print Assumptions C87_capacity.

Definition ext_look : vdecl :=
  mkv "look_ang_l1b_echo_sar_ku" I16 ["time_l1b_echo_sar_ku"; "max_multi_stack_ind"]
      (Some "rad") (Some (1 # 1000000)%Q) (Some (157 # 100)%Q) (Some (32767 # 1)%Q).
Definition l1bs_beam : vdecl :=
  mkv "beam_ang_l1bs_echo_sar_ku" I16 ["time_l1bs_echo_sar_ku"; "max_multi_stack_ind"]
      (Some "rad") (Some (1 # 1000000)%Q) (Some (157 # 100)%Q) (Some (32767 # 1)%Q).

Lemma look_caps : forall v, v = ext_look \/ v = l1bs_beam ->
  1.537 <= Q2R (cap_lo v) /\ Q2R (cap_hi v) <= 1.603.
Proof.
  intros v [->| ->]; rewrite cap_lo_R, cap_hi_R;
    cbn [v_type v_scale v_offset qor ext_look l1bs_beam tmin tmax]; unfold Q2R; cbn [Qnum Qden]; lra.
Qed.

(** The look angles of the extended product are packed around a right angle,
    but they are small: none of them can be read back. *)
Theorem C87_look_refuted : In ext_look (p_vars ext_product) /\
  In ("look_ang_l1b_echo_sar_ku", SSurf "look_angles_surf") (p_writes ext_product) /\
  forall rnd wrap x, in_type wrap -> Rabs x <= 0.03 ->
    match unpack ext_look (pack rnd wrap ext_look x) with
    | None => True
    | Some y => Rabs (y - x) > 1.5
    end.
Proof.
  split; [|split].
  - assert (E : decl_of ext_product "look_ang_l1b_echo_sar_ku" = Some ext_look)
      by (vm_compute; reflexivity).
    unfold decl_of in E. apply find_some in E. apply E.
  - assert (E : find (fun p => fst p =? "look_ang_l1b_echo_sar_ku") (p_writes ext_product) =
      Some ("look_ang_l1b_echo_sar_ku", SSurf "look_angles_surf")) by (vm_compute; reflexivity).
    apply find_some in E. apply E.
  - intros rnd wrap x Hw Hx.
    destruct (unpack ext_look (pack rnd wrap ext_look x)) as [y|] eqn:E; [|exact I].
    apply readback_bounds in E; [|exact Hw|reflexivity].
    destruct (look_caps ext_look (or_introl eq_refl)) as [L1 L2].
    apply abs_between in Hx. rewrite Rabs_right by lra. lra.
Qed.
Print Assumptions C87_look_refuted.

(** Entries of the beam angle array beyond the stack hold zero
    (multilooking.py 225-229); they are not masked in the product but read
    back, if at all, as angles of an actual beam. *)
Definition wrap_mod (t : ntype) (n : Z) : Z :=
  (tmin t + (n - tmin t) mod (tmax t - tmin t + 1))%Z.
Definition round_half (x : R) : Z := Int_part (x + 1 / 2).

Lemma wrap_mod_in : in_type wrap_mod.
Proof.
  intros t n. unfold wrap_mod.
  assert (H : (0 < tmax t - tmin t + 1)%Z) by (destruct t; reflexivity).
  pose proof (Z.mod_pos_bound (n - tmin t) _ H). lia.
Qed.
Lemma round_half_nearest : nearest round_half.
Proof.
  intro x. unfold round_half. destruct (base_Int_part (x + 1 / 2)) as [H1 H2].
  apply Rabs_le. lra.
Qed.
Lemma round_half_int : forall n, round_half (IZR n) = n.
Proof.
  intro n. unfold round_half. destruct (base_Int_part (IZR n + 1 / 2)) as [H1 H2].
  assert (A : (Int_part (IZR n + 1 / 2) < n + 1)%Z) by (apply lt_IZR; rewrite plus_IZR; lra).
  assert (B : (n - 1 < Int_part (IZR n + 1 / 2))%Z) by (apply lt_IZR; rewrite minus_IZR; lra).
  lia.
Qed.

Theorem C87_padding_refuted : In l1bs_beam (p_vars l1bs_product) /\
  (forall rnd wrap y, in_type wrap ->
     unpack l1bs_beam (pack rnd wrap l1bs_beam 0) = Some y -> 1.537 <= y <= 1.603) /\
  exists rnd wrap, nearest rnd /\ in_type wrap /\
     unpack l1bs_beam (pack rnd wrap l1bs_beam 0) = Some 1.572864.
Proof.
  split; [|split].
  - assert (E : decl_of l1bs_product "beam_ang_l1bs_echo_sar_ku" = Some l1bs_beam)
      by (vm_compute; reflexivity).
    unfold decl_of in E. apply find_some in E. apply E.
  - intros rnd wrap y Hw E. apply readback_bounds in E; [|exact Hw|reflexivity].
    destruct (look_caps l1bs_beam (or_intror eq_refl)) as [L1 L2]. lra.
  - exists round_half, wrap_mod. split; [apply round_half_nearest|].
    split; [apply wrap_mod_in|].
    unfold pack. cbn [v_type v_scale v_offset qor l1bs_beam].
    replace ((0 - Q2R (157 # 100)) / Q2R (1 # 1000000)) with (IZR (-1570000))
      by (unfold Q2R; cbn [Qnum Qden]; field).
    rewrite round_half_int.
    replace (cast wrap_mod I16 (-1570000)) with 2864%Z by (vm_compute; reflexivity).
    unfold unpack. cbn [v_fill v_scale v_offset qor l1bs_beam].
    replace (Qeq_bool (inject_Z 2864) (32767 # 1)) with false by (vm_compute; reflexivity).
    f_equal. unfold Q2R; cbn [Qnum Qden]. field.
Qed.
Print Assumptions C87_padding_refuted.

Example C87_example : In (l1bs_product, l1bs_ranges) ranges /\
  In ("beam_ang_l1bs_echo_sar_ku", upright) l1bs_ranges /\
  nearest round_half /\ in_type wrap_mod /\ packed l1bs_beam = true.
Proof.
  split; [cbn [ranges In]; auto|]. split; [unfold l1bs_ranges; apply in_or_app; right; left; reflexivity|].
  split; [apply round_half_nearest|]. split; [apply wrap_mod_in|reflexivity].
Qed.

(** * C88 Values are stated in the declared unit and the products agree *)

Lemma decl_unique : forall p v, In p products -> In v (p_vars p) -> decl_of p (v_name v) = Some v.
Proof.
  intros p v Hp Hv. destruct (names_nodup p Hp) as [ND _]. unfold decl_of.
  revert ND Hv. generalize (p_vars p). induction l as [|w l IH]; intros ND Hv; [destruct Hv|].
  cbn in ND. inversion ND as [|? ? Hn ND']; subst. cbn [find].
  destruct Hv as [->|Hv]; [rewrite String.eqb_refl; reflexivity|].
  destruct (v_name w =? v_name v) eqn:E; [|apply IH; assumption].
  apply String.eqb_eq in E. exfalso. apply Hn. rewrite E. apply in_map. exact Hv.
Qed.
Lemma write_unique : forall p x s, In p products -> In (x, s) (p_writes p) ->
  find_assoc x (p_writes p) = Some s.
Proof.
  intros p x s Hp Hv. destruct (names_nodup p Hp) as [_ ND]. unfold find_assoc.
  revert ND Hv. generalize (p_writes p). induction l as [|[y t] l IH]; intros ND Hv; [destruct Hv|].
  cbn in ND. inversion ND as [|? ? Hn ND']; subst. cbn [find fst snd].
  destruct Hv as [Hv|Hv].
  - injection Hv; intros; subst. rewrite String.eqb_refl. reflexivity.
  - destruct (y =? x) eqn:E; [|apply IH; assumption].
    apply String.eqb_eq in E. subst y. exfalso. apply Hn.
    change x with (fst (x, s)). apply in_map. exact Hv.
Qed.

Lemma same_vmap_id : forall v f, (forall x, f x = x) -> same_value v (vmap f v).
Proof. intros [x|n g|r c g] f H; cbn; rewrite ?H; auto. Qed.
Lemma same_vmap : forall v f g, (forall x, f x = g x) -> same_value (vmap f v) (vmap g v).
Proof. intros [x|n h|r c h] f g H; cbn; auto. Qed.
Lemma same_vmap2 : forall v f g h, (forall x, f x = g (h x)) -> same_value (vmap f v) (vmap g (vmap h v)).
Proof. intros [x|n k|r c k] f g h H; cbn; auto. Qed.
Lemma same_vmap_id2 : forall v g h, (forall x, x = g (h x)) -> same_value v (vmap g (vmap h v)).
Proof. intros [x|n k|r c k] g h H; cbn; auto. Qed.
Lemma same_vop : forall v (f g : R -> R -> R) h (a b : R), (forall x, f (g x a) b = h x) ->
  same_value (vmap (fun z => f z b) (vmap (fun z => g z a) v)) (vmap h v).
Proof. intros [x|n k|r c k] f g h a b H; cbn; auto. Qed.

(** Attitude angles of the L1BS product are left out (see below). *)
Definition attitudes : list string := ["roll_sat_pointing"; "pitch_sat_pointing"; "yaw_sat_pointing"].


Theorem C88_units_partial : forall l1bs p base,
  In (l1bs, p) tagged -> In base quantities -> ~ (l1bs = true /\ In base attitudes) ->
  states_quantity l1bs p base.
Proof.
  intros l1bs p base Ht Hb Hna v s e q w Hv Hn Hw Hq Ev.
  assert (Hp : In p products).
  { cbn in Ht. destruct Ht as [H|[H|[H|[]]]]; injection H; intros <- _; cbn; auto. }
  apply (decl_unique p v Hp) in Hv. rewrite Hn in Hv.
  apply (write_unique p _ s Hp) in Hw. rewrite Hn in Hw. clear Hn Hp.
  cbn [tagged In] in Ht. cbn [quantities In] in Hb.
  destruct Ht as [Ht|[Ht|[Ht|[]]]]; injection Ht; intros <- <-; clear Ht;
  (repeat (destruct Hb as [Hb|Hb]; [subst base|]); [..|destruct Hb]);
  vm_compute in Hv; try discriminate Hv; vm_compute in Hw; try discriminate Hw;
  injection Hv; intros <-; clear Hv; injection Hw; intros <-; clear Hw;
  try (exfalso; apply Hna; split; [reflexivity|cbn; tauto]);
  cbn in Hq; injection Hq; intros <-; clear Hq;
  cbn [eval option_map vop] in Ev; injection Ev; intros <-; clear Ev;
  cbn [v_units];
  first [ apply same_vmap_id; intro; reflexivity
        | apply same_vmap; intro; reflexivity
        | apply same_vmap_id2; intro x; unfold in_unit, rad_of_deg; cbn [String.eqb Ascii.eqb Bool.eqb orb];
          field; apply PI_neq0
        | apply same_vmap2; intro x; unfold in_unit; cbn [String.eqb Ascii.eqb Bool.eqb orb]; reflexivity
        | destruct (e_surf e "win_delay_surf"); cbn; auto ].
Qed.
Print Assumptions C88_units_partial.

(** The L1BS product declares attitude angles in degrees and stores them in
    radians: every angle but zero is misstated. *)
Theorem C88_attitude_refuted : forall base, In base attitudes ->
  exists v f, In v (p_vars l1bs_product) /\ v_name v = (base ++ suffix_of true)%string /\
    v_units v = Some "degrees" /\ In (v_name v, SSurf f) (p_writes l1bs_product) /\
    forall e r, quantity e base = Some (VNum r) -> r <> 0 ->
      eval e (SSurf f) = Some (VNum r) /\
      ~ same_value (VNum r) (vmap (in_unit "degrees") (VNum r)).
Proof.
  assert (K : forall r : R, r <> 0 -> ~ same_value (VNum r) (vmap (in_unit "degrees") (VNum r))).
  { intros r Hr H. cbn [vmap same_value] in H. change (r = r * 180 / PI) in H.
    pose proof PI_RGT_0. pose proof PI_4 as P4.
    assert (E : r * (180 - PI) = 0).
    { apply (f_equal (fun z => z * PI)) in H. unfold Rdiv in H.
      rewrite Rmult_assoc, Rinv_l, Rmult_1_r in H by lra. lra. }
    apply Rmult_integral in E. destruct E as [E|E]; [congruence|lra]. }
  assert (G : forall base f, In base attitudes -> forall v,
    decl_of l1bs_product (base ++ suffix_of true) = Some v -> v_units v = Some "degrees" ->
    find_assoc (base ++ suffix_of true)%string (p_writes l1bs_product) = Some (SSurf f) ->
    (forall e, quantity e base = Some (e_surf e f)) ->
    exists v f, In v (p_vars l1bs_product) /\ v_name v = (base ++ suffix_of true)%string /\
    v_units v = Some "degrees" /\ In (v_name v, SSurf f) (p_writes l1bs_product) /\
    forall e r, quantity e base = Some (VNum r) -> r <> 0 ->
      eval e (SSurf f) = Some (VNum r) /\
      ~ same_value (VNum r) (vmap (in_unit "degrees") (VNum r))).
  { intros base f Hb v Ed Eu Ew Eq. exists v, f.
    unfold decl_of in Ed. apply find_some in Ed. destruct Ed as [Ed1 Ed2].
    apply String.eqb_eq in Ed2. split; [exact Ed1|]. split; [exact Ed2|]. split; [exact Eu|].
    rewrite Ed2. unfold find_assoc in Ew.
    destruct (find (fun p => fst p =? base ++ suffix_of true) (p_writes l1bs_product)) as [[x t]|] eqn:Ef;
      [|discriminate]. cbn [snd] in Ew. injection Ew; intro; subst t.
    apply find_some in Ef. destruct Ef as [Ef1 Ef2]. cbn [fst] in Ef2. apply String.eqb_eq in Ef2.
    subst x. split; [exact Ef1|]. intros e r Hq Hr. rewrite Eq in Hq. split; [exact Hq|].
    apply K. exact Hr. }
  intros base Hb. pose proof Hb as Hb'. cbn in Hb.
  destruct Hb as [<-|[<-|[<-|[]]]].
  - eapply (G _ "roll_sat" Hb'); [vm_compute; reflexivity|reflexivity|vm_compute; reflexivity|reflexivity].
  - eapply (G _ "pitch_sat" Hb'); [vm_compute; reflexivity|reflexivity|vm_compute; reflexivity|reflexivity].
  - eapply (G _ "yaw_sat" Hb'); [vm_compute; reflexivity|reflexivity|vm_compute; reflexivity|reflexivity].
Qed.
Print Assumptions C88_attitude_refuted.

(** Names under which two products store different things. *)
Definition differ_ext_std : list string := ["nb_stack"; "beam_ang"; "i2q2_meas_ku"].
Definition differ_ext_l1bs : list string :=
  ["surf_type"; "roll_sat_pointing"; "pitch_sat_pointing"; "yaw_sat_pointing";
   "i2q2_meas_ku"; "nb_stack"; "beam_ang"].
Definition differ_std_l1bs : list string := ["surf_type"; "i2q2_meas_ku"; "beam_ang"].

(** Under every other common name, two products of a run store the same
    value. *)
Definition agree (b1 b2 : bool) (p1 p2 : product) (except : list string) : Prop :=
  forall base s1 s2, In ((base ++ suffix_of b1)%string, s1) (p_writes p1) ->
    In ((base ++ suffix_of b2)%string, s2) (p_writes p2) -> ~ In base except -> s1 = s2.

Fixpoint src_eqb (a b : src) : bool :=
  match a, b with
  | SNone, SNone | SLight, SLight => true
  | SSurf x, SSurf y | SBurst x, SBurst y | SLocal x, SLocal y => (x =? y)%string
  | SConst x, SConst y => (x =? y)%Z
  | SDeg x, SDeg y | SNeg x, SNeg y => src_eqb x y
  | SSub x x', SSub y y' | SMul x x', SMul y y' | SDiv x x', SDiv y y' => src_eqb x y && src_eqb x' y'
  | _, _ => false
  end.
Lemma src_eqb_ok : forall a b, src_eqb a b = true -> a = b.
Proof.
  induction a as [ |f|f|x| |z|a IH|a IH|a IHa a' IHa'|a IHa a' IHa'|a IHa a' IHa'];
    intros [ |g|g|y| |z'|b|b|b b'|b b'|b b'] H; cbn [src_eqb] in H; try discriminate; try reflexivity;
    try (apply String.eqb_eq in H; congruence);
    try (apply Z.eqb_eq in H; congruence);
    try (apply IH in H; congruence);
    apply andb_true_iff in H; destruct H as [H1 H2]; apply IHa in H1; apply IHa' in H2; congruence.
Qed.

(** For every write of [p2] and the write of [p1] whose name has the same
    base (obtained by changing the suffix). *)
Definition rebase (from to x : string) : string :=
  (substring 0 (String.length x - String.length from) x ++ to)%string.
Definition agreeb (b1 b2 : bool) (p1 p2 : product) (except : list string) : bool :=
  forallb (fun kv =>
    let base := rebase (suffix_of b2) "" (fst kv) in
    if memb base except then true
    else match find_assoc (base ++ suffix_of b1)%string (p_writes p1) with
         | Some s => src_eqb s (snd kv)
         | None => true
         end) (p_writes p2).

Lemma append_empty : forall a, (a ++ "")%string = a.
Proof. induction a as [|c a IH]; [reflexivity|]. cbn. rewrite IH. reflexivity. Qed.
Lemma substring_prefix : forall a b, substring 0 (String.length a) (a ++ b) = a.
Proof.
  induction a as [|c a IH]; intro b; [destruct b; reflexivity|].
  cbn [String.length String.append substring]. rewrite IH. reflexivity.
Qed.
Lemma length_append : forall a b, String.length (a ++ b) = (String.length a + String.length b)%nat.
Proof. induction a as [|c a IH]; intro b; [reflexivity|]. cbn. rewrite IH. reflexivity. Qed.
Lemma rebase_app : forall a from, rebase from "" (a ++ from) = a.
Proof.
  intros a from. unfold rebase. rewrite length_append, append_empty.
  replace (String.length a + String.length from - String.length from)%nat with (String.length a) by lia.
  apply substring_prefix.
Qed.

Lemma agreeb_ok : forall b1 b2 p1 p2 except, In p1 products -> agreeb b1 b2 p1 p2 except = true ->
  agree b1 b2 p1 p2 except.
Proof.
  intros b1 b2 p1 p2 except Hp H base s1 s2 H1 H2 Hn. unfold agreeb in H.
  rewrite forallb_forall in H. specialize (H _ H2). cbv zeta in H. cbn [fst snd] in H.
  rewrite rebase_app in H. apply memb_not in Hn. rewrite Hn in H.
  rewrite (write_unique p1 _ s1 Hp H1) in H. apply src_eqb_ok. exact H.
Qed.

Theorem C88_agree_partial :
  agree false false ext_product std_product differ_ext_std /\
  agree false true ext_product l1bs_product differ_ext_l1bs /\
  agree false true std_product l1bs_product differ_std_l1bs.
Proof.
  split; [|split]; apply agreeb_ok; try (cbn; tauto); vm_compute; reflexivity.
Qed.
Print Assumptions C88_agree_partial.

(** The surface type of the L1BS product is that of no burst: it is always
    the first of the flags, whatever the altimeter reports. *)
Theorem C88_surface_type_refuted :
  In ("surf_type_l1bs_echo_sar_ku", SSurf "surface_type.value") (p_writes l1bs_product) /\
  In ("surf_type_l1b_echo_sar_ku", SBurst "surf_type") (p_writes ext_product) /\
  exists e, e_surf e "surface_type.value" = VNum surface_type_value /\
    eval e (SSurf "surface_type.value") <> eval e (SBurst "surf_type").
Proof.
  split; [|split].
  - assert (E : find (fun p => fst p =? "surf_type_l1bs_echo_sar_ku") (p_writes l1bs_product) =
      Some ("surf_type_l1bs_echo_sar_ku", SSurf "surface_type.value")) by (vm_compute; reflexivity).
    apply find_some in E. apply E.
  - assert (E : find (fun p => fst p =? "surf_type_l1b_echo_sar_ku") (p_writes ext_product) =
      Some ("surf_type_l1b_echo_sar_ku", SBurst "surf_type")) by (vm_compute; reflexivity).
    apply find_some in E. apply E.
  - exists ex_env. split; [reflexivity|]. cbn. intro H. injection H; intro. lra.
Qed.
Print Assumptions C88_surface_type_refuted.

(** The beam angle variable of the standard product holds minus the look
    angle, that of the extended product the beam angle. *)
Theorem C88_beam_refuted :
  In ("beam_ang_l1b_echo_sar_ku", SNeg (SSurf "look_angles_surf")) (p_writes std_product) /\
  In ("beam_ang_l1b_echo_sar_ku", SSurf "beam_angles_surf") (p_writes ext_product) /\
  forall e n look dop, e_surf e "look_angles_surf" = VVec n look ->
    e_surf e "beam_angles_surf" = VVec n (fun i => PI / 2 + dop i - look i) ->
    forall i, exists f g, eval e (SNeg (SSurf "look_angles_surf")) = Some (VVec n f) /\
      eval e (SSurf "beam_angles_surf") = Some (VVec n g) /\ g i - f i = PI / 2 + dop i.
Proof.
  split; [|split].
  - assert (E : find (fun p => fst p =? "beam_ang_l1b_echo_sar_ku") (p_writes std_product) =
      Some ("beam_ang_l1b_echo_sar_ku", SNeg (SSurf "look_angles_surf"))) by (vm_compute; reflexivity).
    apply find_some in E. apply E.
  - assert (E : find (fun p => fst p =? "beam_ang_l1b_echo_sar_ku") (p_writes ext_product) =
      Some ("beam_ang_l1b_echo_sar_ku", SSurf "beam_angles_surf")) by (vm_compute; reflexivity).
    apply find_some in E. apply E.
  - intros e n look dop E1 E2 i. cbn [eval option_map]. rewrite E1, E2. cbn [vmap].
    do 2 eexists. split; [reflexivity|]. split; [reflexivity|]. lra.
Qed.
Print Assumptions C88_beam_refuted.

Example C88_example : quantity ex_env "roll_sat_pointing" = Some (VNum 1) /\
  eval ex_env (SDeg (SSurf "roll_sat")) = Some (VNum (1 * 180 / PI)) /\
  eval ex_env (SSurf "roll_sat") = Some (VNum 1).
Proof. repeat split. Qed.

(** * C89 GPS time counts from the GPS epoch *)

(** 1 January 2000 is 7300 days after 6 January 1980, and GPS time is 19 s
    behind TAI. *)
Theorem C89_gps : forall t,
  gps_time_surf t = 86400 * IZR (january 2000 1 - january 1980 6) + t - 19.
Proof.
  intro t. replace (january 2000 1 - january 1980 6)%Z with 7300%Z by (vm_compute; reflexivity).
  unfold gps_time_surf. lra.
Qed.
Print Assumptions C89_gps.
Example C89_example : gps_time_surf 19 = 630720000.
Proof. unfold gps_time_surf. lra. Qed.
