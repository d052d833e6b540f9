(** C145: the numbers of a run and the files of the processor. *)
From Coq Require Import String List ZArith QArith Reals Qreals Bool Lia Lra.
From Verif Require Import Common Dict ConfModel ConfData ConfSpec DerModel DerSpec GeoModel ReaderModel ChainModel WholeModel WholeSpec FileModel FileSpec EndModel EndSpec JobModel JobSpec.
From Verif Require SurfModel GcorrModel PktModel WaveModel SchSpec WriterModel DerProps WholeProps EndProps.
Import ListNotations.
Local Open Scope string_scope.
Local Open Scope list_scope.

Section Files.
Variable text : string -> option Q.
Variable itext : string -> option Z.
Notation number := (DerModel.number text).
Notation job_of := (job_of text itext).

(** * Reading *)
Lemma bind_ok : forall {E A B} (r : res E A) (f : A -> res E B) b, bind r f = Ok b -> exists a, r = Ok a /\ f a = Ok b.
Proof. intros E A B [a|e] f b H; cbn in H; [eauto|discriminate]. Qed.
Lemma number_inv : forall c d x q, number c d x = Ok q -> has text d x q.
Proof.
  intros c d x q N. unfold DerModel.number, compute, retrieve, float_param, mk_param in N. cbn [p_name o_class o_data p_optional is_null negb orb] in N.
  destruct (declares c x); [|discriminate]. destruct (dget x d) as [j|] eqn:D; [|discriminate]. exists j. split; [exact D|].
  destruct j; cbn in N |- *; try discriminate; try congruence. destruct (text s); cbn in N; congruence.
Qed.
Lemma untyped_inv : forall c d x o j, entry c d (untyped x o) = Ok j -> dget x d = Some j \/ (declares c x = false \/ dget x d = None) /\ o = true /\ j = JNull.
Proof.
  intros c d x o j N. unfold entry, compute, retrieve, untyped, mk_param in N. cbn [p_name o_class o_data p_optional is_null negb orb p_cast p_type p_array option_map p_default] in N.
  destruct (declares c x); [destruct (dget x d) as [j'|]|]; cbn in N.
  - left. congruence.
  - right. destruct o; cbn in N; [|discriminate]. split; [now right|]. split; [reflexivity|congruence].
  - right. destruct o; cbn in N; [|discriminate]. split; [now left|]. split; [reflexivity|congruence].
Qed.
Lemma flag_inv : forall d x b, flag d x = Ok b -> exists j, dget x d = Some j /\ b = truth j.
Proof.
  intros d x b F. apply bind_ok in F as (j & E & F). destruct (untyped_inv _ _ _ _ _ E) as [H|(_ & H & _)]; [|discriminate]. exists j. split; [exact H|congruence].
Qed.
Lemma truth_spec : forall j, truth j = false <-> falsehood j.
Proof.
  intros j. unfold falsehood. split.
  - destruct j as [|b|q|s|l|d]; cbn; intros H.
    + tauto.
    + subst b. tauto.
    + right. exists q. split; [reflexivity|]. apply negb_false_iff, Qeq_bool_eq in H. exact H.
    + apply negb_false_iff, String.eqb_eq in H. subst s. tauto.
    + destruct l; [tauto|discriminate].
    + destruct d; [tauto|discriminate].
  - intros [I|(q & -> & Z)].
    + cbn in I. destruct I as [<-|[<-|[<-|[<-|[<-|[]]]]]]; reflexivity.
    + cbn. apply Qeq_bool_iff in Z. now rewrite Z.
Qed.
Lemma flag_spec : forall d x b, flag d x = Ok b -> switched d x b.
Proof. intros d x b F. destruct (flag_inv _ _ _ F) as (j & H & ->). exists j. split; [exact H|apply truth_spec]. Qed.
Lemma bool_spec : forall d x j, entry cnf_class d (bool_param x) = Ok j -> switched d x (truth j).
Proof.
  intros d x j N. unfold entry, compute, retrieve, bool_param, mk_param in N. cbn [p_name o_class o_data p_optional is_null negb orb p_cast p_type p_array option_map p_default fst snd] in N.
  destruct (declares _ x); [|discriminate]. destruct (dget x d) as [j'|] eqn:D; [|discriminate]. exists j'. split; [exact D|].
  rewrite <- truth_spec. destruct j'; cbn in N; [discriminate| | | | |]; injection N as <-; reflexivity.
Qed.
Lemma plain_inv : forall j q, plain j = Ok q -> j = JNum q \/ (j = JBool true /\ q = 1%Q) \/ (j = JBool false /\ q = 0%Q).
Proof. intros [|[|]|r|s|l|d] q H; cbn in H; try discriminate; [right; left|right; right|left]; try split; congruence. Qed.
Lemma count_inv : forall q n, count q = Ok n -> (q == inject_Z (Z.of_nat n))%Q.
Proof.
  intros q n H. unfold count in H. cbv zeta in H. destruct (_ && _)%bool eqn:E; [|discriminate]. apply andb_true_iff in E as (E1 & E2).
  injection H as <-. rewrite Z2Nat.id by (apply Z.leb_le; exact E2). apply Qeq_bool_eq. exact E1.
Qed.
Lemma value_count : forall d x n, bind (value d x) count = Ok n -> counted d x n.
Proof.
  intros d x n H. apply bind_ok in H as (q & V & C). apply bind_ok in V as (j & E & P). apply count_inv in C.
  destruct (untyped_inv _ _ _ _ _ E) as [D|(_ & D & _)]; [|discriminate]. exists j. split; [exact D|].
  destruct (plain_inv _ _ P) as [->|[(-> & ->)|(-> & ->)]]; [exact C| |]; unfold Qeq in C; cbn in C; lia.
Qed.
Lemma int_inv : forall c d x j, entry c d (int_param itext x) = Ok j ->
  exists j' z, dget x d = Some j' /\ j = JNum (inject_Z z) /\
    match j' with JNum q => z = Z.quot (Qnum q) (Zpos (Qden q)) | JBool b => z = (if b then 1 else 0)%Z | JStr s => itext s = Some z | _ => False end.
Proof.
  intros c d x j N. unfold entry, compute, retrieve, int_param, mk_param in N. cbn [p_name o_class o_data p_optional is_null negb orb p_cast p_type p_array option_map p_default fst snd] in N.
  destruct (declares c x); [|discriminate]. destruct (dget x d) as [j'|] eqn:D; [|discriminate]. exists j'.
  destruct j' as [|b|q|s|l|o]; cbn in N; try discriminate.
  - injection N as <-. eauto.
  - injection N as <-. eauto.
  - destruct (itext s) as [z|] eqn:T; cbn in N; [|discriminate]. injection N as <-. eauto.
Qed.
Lemma size_spec : forall c d x n, bind (bind (entry c d (int_param itext x)) plain) count = Ok n -> sized itext d x n.
Proof.
  intros c d x n H. apply bind_ok in H as (q & V & C). apply bind_ok in V as (j & E & P). apply count_inv in C.
  destruct (int_inv _ _ _ _ E) as (j' & z & D & -> & M). destruct (plain_inv _ _ P) as [Q|[(Q & _)|(Q & _)]]; try discriminate. injection Q as <-.
  assert (Z : z = Z.of_nat n) by (unfold Qeq in C; cbn in C; lia). exists j'. split; [exact D|]. destruct j' as [|b|q|s|l|o]; try contradiction.
  - destruct b; lia.
  - unfold cut_off. destruct q as [a b]. cbn [Qnum Qden] in M. unfold Qle, Qlt, Qplus. cbn [inject_Z Qnum Qden Qopp]. rewrite <- Z.
    destruct (Z_le_gt_dec 0 a) as [L|G].
    + left. rewrite Z.quot_div_nonneg in M by lia. pose proof (Z.div_mod a (Zpos b) ltac:(lia)). pose proof (Z.mod_pos_bound a (Zpos b) ltac:(lia)). nia.
    + right. pose proof (Z.quot_rem' a (Zpos b)) as QR. pose proof (Z.rem_bound_pos_neg a (Zpos b) ltac:(lia) ltac:(lia)).
      rewrite <- M in QR. assert (0 <= z)%Z by lia. assert (z = 0)%Z by nia. split; [lia|]. split; nia.
  - congruence.
Qed.
Lemma bound_spec : forall c d x b, declares c x = true -> bound c d x = Ok b -> limited d x b.
Proof.
  intros c d x b DE H. apply bind_ok in H as (j & E & M). destruct (untyped_inv _ _ _ _ _ E) as [D|([D|D] & _ & ->)].
  - destruct j as [|b'|q|s|l|o]; cbn in M; try discriminate; injection M as <-; cbn.
    + now right.
    + exists (JBool b'). split; [exact D|]. destruct b'; tauto.
    + exists (JNum q). split; [exact D|tauto].
  - congruence.
  - cbn in M. injection M as <-. cbn. now left.
Qed.
Lemma value_spec : forall d x q, value d x = Ok q -> limited d x (Some q).
Proof.
  intros d x q H. apply bind_ok in H as (j & E & P). destruct (untyped_inv _ _ _ _ _ E) as [D|(_ & D & _)]; [|discriminate]. exists j. split; [exact D|exact (plain_inv _ _ P)].
Qed.
Lemma enum_inv : forall d x l def j, entry cnf_class d (enum_param x l def) = Ok j -> is_null def = true \/ is_text def = true ->
  (exists s, j = JStr s /\ In s l /\ dget x d = Some (JStr s)) \/ (is_text def = true /\ j = def /\ (declares cnf_class x = false \/ dget x d = None)).
Proof.
  intros d x l def j N T. unfold entry, compute, retrieve, enum_param, mk_param in N. cbn [p_name o_class o_data p_optional orb p_cast p_type p_array option_map p_default fst snd] in N.
  assert (DF : negb (is_null def) = true -> is_text def = true /\ forall f, (bind (if is_null def then Ok def else f def) (fun v => if is_text v then Ok v else Err EParamType)) = bind (f def) (fun v => if is_text v then Ok v else Err EParamType)).
  { intros H. destruct T as [T|T]; [rewrite T in H; discriminate|]. split; [exact T|]. intros f. apply negb_true_iff in H. now rewrite H. }
  destruct (declares cnf_class x); [destruct (dget x d) as [j'|] eqn:D|].
  - left. destruct j' as [|b|q|s|l'|o]; cbn in N; try discriminate. destruct (existsb (String.eqb s) l) eqn:EX; cbn in N; [|discriminate].
    injection N as <-. exists s. split; [reflexivity|]. split; [|reflexivity]. apply existsb_exists in EX as (y & I & Y). apply String.eqb_eq in Y. now subst.
  - right. destruct (negb (is_null def)) eqn:ND; cbn [bind] in N; [|discriminate]. destruct (DF eq_refl) as (T1 & T2).
    destruct def as [| | |s| |]; try discriminate. cbn in N. destruct (existsb (String.eqb s) l); cbn in N; [|discriminate]. injection N as <-. auto.
  - right. destruct (negb (is_null def)) eqn:ND; cbn [bind] in N; [|discriminate]. destruct (DF eq_refl) as (T1 & T2).
    destruct def as [| | |s| |]; try discriminate. cbn in N. destruct (existsb (String.eqb s) l); cbn in N; [|discriminate]. injection N as <-. auto.
Qed.

Ltac open_binds H :=
  repeat match type of H with
         | bind ?r ?f = Ok ?x => let a := fresh "a" in let E := fresh "E" in apply bind_ok in H as (a & E & H); cbv beta zeta in H
         end.

Lemma consts_inv : forall pr k, consts_of text pr = Ok k ->
  forall x r, In (x, r) [("c_cst", k_c k); ("pi_cst", k_pi k); ("semi_major_axis_cst", k_major k); ("semi_minor_axis_cst", k_minor k);
    ("flat_coeff_cst", k_flat k); ("sec_in_day_cst", k_day k)] -> shows text (pr_cst pr) x r.
Proof.
  intros pr k H. unfold consts_of in H. cbv zeta in H. open_binds H. injection H as <-. cbn [k_c k_pi k_major k_minor k_flat k_day].
  intros x r I. cbn [In] in I. repeat (destruct I as [I|I]; [injection I as <- <-; eexists; split; [eapply number_inv; eassumption|reflexivity]|]). destruct I.
Qed.

(** Every number, size and switch of the run is the one the files say, in all the
    places it is used; nothing else comes from the call but whether an L1BS file is
    made. *)
Theorem C145_drawn : forall pr skip e j, job_of pr skip e = Ok j ->
  let hd := h_data (pr_chd pr) in let d := pr_cnf pr in let cf := u_cf (j_u j) in
  (forall x r, In (x, r) (constants j) -> shows text (pr_cst pr) x r) /\
  (forall x r, In (x, r) (characteristics j) -> shows text hd x r) /\
  (forall x b, In (x, b) (switches j) -> switched d x b) /\
  sized itext hd "N_ku_pulses_burst_chd" (c_N cf) /\ SurfModel.g_pulses (u_g (j_u j)) = INR (c_N cf) /\
  sized itext hd "N_samples_sar_chd" (GcorrModel.k_n (u_k (j_u j))) /\
  counted d "N_looks_stack_cnf" (c_looks cf) /\ counted d "zp_fact_range_cnf" (u_zp (j_u j)) /\
  sized itext d "flag_cal2_table_index_cnf" (n_cal2 (j_o j)) /\
  limited d "min_lat_cnf" (min_lat (j_g j)) /\ limited d "max_lat_cnf" (max_lat (j_g j)) /\
  limited d "min_lon_cnf" (min_lon (j_g j)) /\ limited d "max_lon_cnf" (max_lon (j_g j)) /\
  (exists s, dget "flag_azimuth_processing_method_cnf" d = Some (JStr s) /\ In s ["approx"; "exact"] /\ (c_approx cf = true <-> s = "approx")) /\
  (j_ext j = false <-> dget "output_format_flag_cnf" d = Some (JStr "sentinel-3")) /\
  (exists w, has text d "flag_antenna_weighting_cnf" w /\ (WaveModel.v_weight (j_v j) = None <-> (w == 0)%Q)) /\
  c_gap cf = pr_gap pr /\ c_min cf = 80%nat /\ c_l1bs cf = negb skip.
Proof.
  intros pr skip e j H hd d cf. unfold JobModel.job_of in H. apply bind_ok in H as (o & HO & H). apply bind_ok in H as (g & HG & H).
  apply bind_ok in H as (u & HU & H). apply bind_ok in H as (v & HV & H). apply bind_ok in H as (x & HX & H). injection H as <-.
  unfold opener_of in HO. apply bind_ok in HO as (k0 & K0 & HO). apply bind_ok in HO as (pri0 & PR0 & HO). apply bind_ok in HO as (t0 & T0' & HO). apply bind_ok in HO as (i0 & I0 & HO). injection HO as <-.
  unfold region_of in HG. cbv zeta in HG. apply bind_ok in HG as (r1 & R1 & HG). apply bind_ok in HG as (r2 & R2 & HG). apply bind_ok in HG as (r3 & R3 & HG). apply bind_ok in HG as (r4 & R4 & HG). injection HG as <-.
  unfold setup_of in HU. cbv zeta in HU. apply bind_ok in HU as (k & K & HU). rewrite K in K0. injection K0 as <-.
  apply bind_ok in HU as (pulses & HPU & HU). apply bind_ok in HU as (samples & HSA & HU). apply bind_ok in HU as (looks & HLO & HU). apply bind_ok in HU as (zp & HZP & HU).
  apply bind_ok in HU as (method & HM & HU). apply bind_ok in HU as (focus & HF & HU). apply bind_ok in HU as (lat & _ & HU). apply bind_ok in HU as (lon & _ & HU). apply bind_ok in HU as (alt & _ & HU).
  apply bind_ok in HU as (freq & HFR & HU). apply bind_ok in HU as (prf & HPR & HU). apply bind_ok in HU as (mean & HME & HU). apply bind_ok in HU as (plen & HPL & HU). apply bind_ok in HU as (bw & HBW & HU).
  apply bind_ok in HU as (pri & _ & HU). apply bind_ok in HU as (wave & _ & HU). apply bind_ok in HU as (cal1 & HC1 & HU). apply bind_ok in HU as (cal2 & HC2 & HU).
  apply bind_ok in HU as (dopp & HDO & HU). apply bind_ok in HU as (slant & HSL & HU). injection HU as <-.
  unfold looks_of_files in HV. cbv zeta in HV. apply bind_ok in HV as (mask & HMA & HV). apply bind_ok in HV as (lo & _ & HV). apply bind_ok in HV as (hi & _ & HV). apply bind_ok in HV as (wg & HW & HV). apply bind_ok in HV as (av & HAV & HV). injection HV as <-.
  unfold extended in HX. apply bind_ok in HX as (fm & HFM & HX). injection HX as <-.
  subst hd d cf. pose proof (consts_inv pr k K) as CI.
  cbn [j_o j_g j_u j_v j_ext u_cf u_g u_k u_zp u_prf u_mean u_flags u_cal1 u_cal2 c_N c_looks c_min c_gap c_approx c_l1bs SurfModel.g_k SurfModel.g_focus SurfModel.g_freq SurfModel.g_pulses GcorrModel.k_c GcorrModel.k_pi
    GcorrModel.k_plen GcorrModel.k_bw GcorrModel.k_n GcorrModel.f_doppler GcorrModel.f_slant n_cal2 min_lat max_lat min_lon max_lon WaveModel.v_weight].
  split; [|split; [|split]].
  - intros y r I. unfold constants in I. cbn [j_o j_u u_g u_k SurfModel.g_k GcorrModel.k_c GcorrModel.k_pi n_aux n_day PktModel.a_c In] in I.
    repeat (destruct I as [I|I]; [injection I as <- <-; apply CI; cbn [In]; tauto|]). destruct I.
  - intros y r I. unfold characteristics in I. cbn [j_u u_g u_k u_prf u_mean SurfModel.g_freq GcorrModel.k_plen GcorrModel.k_bw In] in I.
    repeat (destruct I as [I|I]; [injection I as <- <-; eexists; split; [eapply number_inv; eassumption|reflexivity]|]). destruct I.
  - intros y b I. unfold switches in I. cbn [j_u j_v u_g u_cal1 u_cal2 u_flags SurfModel.g_focus GcorrModel.f_doppler GcorrModel.f_slant WaveModel.v_mask WaveModel.v_avoid In] in I.
    repeat (destruct I as [I|I]; [injection I as <- <-; first [apply flag_spec; assumption|apply bool_spec; assumption]|]). destruct I.
  - assert (SZ : forall c d x n, bind (entry c d (int_param itext x)) (fun j => bind (plain j) count) = Ok n -> sized itext d x n).
    { intros c d y n S. apply (size_spec c). destruct (entry c d (int_param itext y)); cbn in S |- *; [exact S|discriminate]. }
    split; [exact (SZ _ _ _ _ HPU)|]. split; [reflexivity|]. split; [exact (SZ _ _ _ _ HSA)|]. split; [apply value_count; exact HLO|]. split; [apply value_count; exact HZP|].
    split; [exact (size_spec _ _ _ _ I0)|]. do 4 (split; [eapply bound_spec; [|eassumption]; vm_compute; reflexivity|]).
    split; [|split; [|split; [|repeat split]]].
    + destruct (enum_inv _ _ _ _ _ HM ltac:(now left)) as [(s & -> & I & D)|(F & _)]; [|discriminate]. exists s. split; [exact D|]. split; [exact I|]. apply String.eqb_eq.
    + destruct (enum_inv _ _ _ _ _ HFM ltac:(now right)) as [(s & -> & I & D)|(_ & -> & [F|D])].
      * rewrite D. rewrite negb_false_iff, String.eqb_eq. split; [now intros ->|]. intros S. now injection S.
      * vm_compute in F. discriminate.
      * rewrite D. cbn. split; discriminate.
    + exists wg. split; [exact (number_inv _ _ _ _ HW)|]. destruct (Qeq_bool wg 0) eqn:Q; [apply Qeq_bool_eq in Q; tauto|]. split; [discriminate|]. intros Z. apply Qeq_bool_iff in Z. congruence.
Qed.

(** The target of a focused run and the limits of the look angles are those of the
    files, in radians. *)
Theorem C145_aimed : forall pr skip e j, job_of pr skip e = Ok j ->
  let hd := h_data (pr_chd pr) in let d := pr_cnf pr in
  (SurfModel.g_focus (u_g (j_u j)) = true -> exists lat lon alt,
     limited d "surface_focusing_lat_cnf" (Some lat) /\ limited d "surface_focusing_lon_cnf" (Some lon) /\ limited d "surface_focusing_alt_cnf" (Some alt) /\
     SurfModel.g_target (u_g (j_u j)) = lla2ecef (SurfModel.g_k (u_g (j_u j))) false
       {| vx := (Q2R lat * PI / 180)%R; vy := (Q2R lon * PI / 180)%R; vz := Q2R alt |}) /\
  (exists lo hi, limited hd "look_angle_mask_min_chd" lo /\ limited hd "look_angle_mask_max_chd" hi /\
     WaveModel.v_lo (j_v j) = option_map (fun q => Q2R q * PI / 180) lo /\ WaveModel.v_hi (j_v j) = option_map (fun q => Q2R q * PI / 180) hi)%R.
Proof.
  intros pr skip e j H hd d. unfold JobModel.job_of in H. apply bind_ok in H as (op & _ & H). apply bind_ok in H as (g & _ & H).
  apply bind_ok in H as (u & HU & H). apply bind_ok in H as (v & HV & H). apply bind_ok in H as (x & _ & H). injection H as <-. cbn [j_u j_v].
  split.
  - unfold setup_of in HU. cbv zeta in HU. do 7 (apply bind_ok in HU as (? & _ & HU)).
    apply bind_ok in HU as (lat & HA & HU). apply bind_ok in HU as (lon & HB & HU). apply bind_ok in HU as (alt & HC & HU).
    do 11 (apply bind_ok in HU as (? & _ & HU)). injection HU as <-. cbn [u_g SurfModel.g_focus SurfModel.g_target SurfModel.g_k]. intros F. rewrite F in HA, HB, HC.
    exists lat, lon, alt. split; [apply value_spec; exact HA|]. split; [apply value_spec; exact HB|]. split; [apply value_spec; exact HC|reflexivity].
  - unfold looks_of_files in HV. cbv zeta in HV. apply bind_ok in HV as (mask & _ & HV). apply bind_ok in HV as (lo & HL & HV). apply bind_ok in HV as (hi & HH & HV).
    do 2 (apply bind_ok in HV as (? & _ & HV)). injection HV as <-. exists lo, hi. cbn [WaveModel.v_lo WaveModel.v_hi].
    split; [eapply bound_spec; [|exact HL]; vm_compute; reflexivity|]. split; [eapply bound_spec; [|exact HH]; vm_compute; reflexivity|]. split; reflexivity.
Qed.

(** * Agreement *)
Lemma over_inv : forall a b v, over a b = Ok v -> ~ (b == 0)%Q /\ (v * b == a)%Q.
Proof.
  intros a b v H. unfold over in H. destruct (Qeq_bool b 0) eqn:E; [discriminate|]. injection H as <-.
  assert (N : ~ (b == 0)%Q) by (intros Z; apply Qeq_bool_iff in Z; congruence). split; [exact N|]. field. exact N.
Qed.
Lemma made_null : forall file collect n f1 f2 f3 o pr, new_processor text file collect n f1 f2 f3 o = Ok pr ->
  h_wv (pr_chd pr) = JNull /\ exists b, fresh_value text (pr_cst pr) (pr_chd pr) Bri = Ok (JNum b) /\ pr_gap pr = (b * (3 # 2))%Q.
Proof.
  intros file collect n f1 f2 f3 o pr H. unfold new_processor in H. destruct (_ && _)%bool; [|discriminate].
  apply bind_ok in H as (j1 & _ & H). apply bind_ok in H as (c & _ & H). apply bind_ok in H as (j2 & _ & H). apply bind_ok in H as (h & HN & H).
  apply bind_ok in H as (j3 & _ & H). apply bind_ok in H as (cn & _ & H). destruct (collect (fst cn)); [|discriminate].
  unfold read in H. destruct (fresh_value text (fst c) (fst h) Bri) as [[| |b| | |]|er] eqn:F; try discriminate. injection H as <-. cbn [pr_chd pr_cst pr_gap].
  split; [|exists b; split; [exact F|reflexivity]].
  unfold new_chd in HN. cbv zeta in HN. cbn [popped dget dpop] in HN. destruct (load chd_class (Some j2) []) as [[dd w]|er]; cbn in HN; [|discriminate]. injection HN as <-. reflexivity.
Qed.
Lemma Q2R_eq : forall a b, (a == b)%Q -> Q2R a = Q2R b. Proof. intros. now apply Qeq_eqR. Qed.

(** In a run made from a processor the numbers fit together, whatever the files say:
    the interval of the pulses is the inverse of their frequency, in the run and in
    the records, the wavelength belongs to the carrier, and a gap is one and a half
    intervals of the bursts. *)
Theorem C145_agree : forall file collect n f1 f2 f3 o pr skip e j,
  new_processor text file collect n f1 f2 f3 o = Ok pr -> job_of pr skip e = Ok j ->
  let u := j_u j in
  (SurfModel.g_pri (u_g u) * u_prf u = 1)%R /\ PktModel.a_chd (n_aux (j_o j)) "pri_sar" = SurfModel.g_pri (u_g u) /\
  (GcorrModel.k_lam (u_k u) * SurfModel.g_freq (u_g u) = k_c (SurfModel.g_k (u_g u)))%R /\
  (forall a b, has text (h_data (pr_chd pr)) "uso_freq_nom_chd" a -> has text (h_data (pr_chd pr)) "alt_freq_multiplier_chd" b ->
     PktModel.a_chd (n_aux (j_o j)) "t0_nom" * Q2R (a * b) = 1)%R /\
  (forall b, has text (h_data (pr_chd pr)) "brf_sar_chd" b -> c_gap (u_cf u) * b == 3 # 2)%Q.
Proof.
  intros file collect n f1 f2 f3 o pr skip e j NP H u. unfold JobModel.job_of in H. apply bind_ok in H as (op & HO & H). apply bind_ok in H as (g & HG & H).
  apply bind_ok in H as (u' & HU & H). apply bind_ok in H as (v & HV & H). apply bind_ok in H as (x & HX & H). injection H as <-. subst u. cbn [j_u j_o].
  unfold opener_of in HO. apply bind_ok in HO as (k0 & K0 & HO). apply bind_ok in HO as (pri0 & PR0 & HO). apply bind_ok in HO as (t0 & HT0 & HO). apply bind_ok in HO as (i0 & I0 & HO). injection HO as <-.
  unfold setup_of in HU. cbv zeta in HU. apply bind_ok in HU as (k & K & HU). rewrite K in K0. injection K0 as <-.
  apply bind_ok in HU as (pulses & HPU & HU). apply bind_ok in HU as (samples & HSA & HU). apply bind_ok in HU as (looks & HLO & HU). apply bind_ok in HU as (zp & HZP & HU).
  apply bind_ok in HU as (method & HM & HU). apply bind_ok in HU as (focus & HF & HU). apply bind_ok in HU as (lat & _ & HU). apply bind_ok in HU as (lon & _ & HU). apply bind_ok in HU as (alt & _ & HU).
  apply bind_ok in HU as (freq & HFR & HU). apply bind_ok in HU as (prf & HPR & HU). apply bind_ok in HU as (mean & HME & HU). apply bind_ok in HU as (plen & HPL & HU). apply bind_ok in HU as (bw & HBW & HU).
  apply bind_ok in HU as (pri & HPI & HU). apply bind_ok in HU as (wave & HWA & HU). apply bind_ok in HU as (cal1 & HC1 & HU). apply bind_ok in HU as (cal2 & HC2 & HU).
  apply bind_ok in HU as (dopp & HDO & HU). apply bind_ok in HU as (slant & HSL & HU). injection HU as <-.
  cbn [u_cf u_g u_k u_prf c_gap SurfModel.g_k SurfModel.g_pri SurfModel.g_freq GcorrModel.k_lam n_aux PktModel.a_chd].
  rewrite HPI in PR0. injection PR0 as <-.
  destruct (made_null _ _ _ _ _ _ _ _ NP) as (W & b & B & GB).
  unfold derived_value, read in HPI, HWA, HT0. rewrite W in HWA. cbn [is_null] in HWA.
  assert (NR : forall r j, num_res r = Ok j -> exists q, r = Ok q /\ j = JNum q) by (intros [q|er] jj Q; cbn in Q; [exists q; split; congruence|discriminate]).
  unfold fresh_value, param in HPI, HWA, HT0, B. cbn [snd] in HPI, HT0.
  split; [|split; [reflexivity|split; [|split]]].
  - apply bind_ok in HPI as (jj & Q & P). apply NR in Q as (q & Q & ->). cbn in P. injection P as <-. rewrite HPR in Q. cbn [bind] in Q.
    apply over_inv in Q as (_ & Q). apply Q2R_eq in Q. rewrite Q2R_mult in Q. rewrite Q. unfold Q2R. cbn. lra.
  - apply bind_ok in HWA as (jj & Q & P). destruct (num_res _) as [jj'|er] eqn:Q' in Q; cbn in Q; [|discriminate]. injection Q as <-. apply NR in Q' as (q & Q & ->). cbn in P. injection P as <-.
    apply bind_ok in Q as (c & HC & Q). rewrite HFR in Q. cbn [bind] in Q. apply over_inv in Q as (_ & Q). apply Q2R_eq in Q. rewrite Q2R_mult in Q. rewrite Q.
    destruct (consts_inv pr k K "c_cst" (k_c k) ltac:(cbn; tauto)) as (c' & HC' & ->). f_equal. exact (DerProps.has_fun text _ _ _ _ (number_inv _ _ _ _ HC) HC').
  - intros a m HA HM'. cbn [String.eqb Ascii.eqb Bool.eqb]. apply bind_ok in HT0 as (jj & Q & P). apply NR in Q as (q & Q & ->). cbn in P. injection P as <-.
    apply bind_ok in Q as (a' & HA' & Q). apply bind_ok in Q as (m' & HM'' & Q). apply over_inv in Q as (_ & Q). apply Q2R_eq in Q. rewrite Q2R_mult in Q.
    rewrite (DerProps.has_fun text _ _ _ _ HA (number_inv _ _ _ _ HA')), (DerProps.has_fun text _ _ _ _ HM' (number_inv _ _ _ _ HM'')). cbn in Q |- *. rewrite Q. unfold Q2R. cbn. lra.
  - intros q HB. apply NR in B as (b' & Q & E). injection E as <-. apply bind_ok in Q as (q' & HQ & Q). apply over_inv in Q as (NZ & Q).
    rewrite (DerProps.has_fun text _ _ _ _ HB (number_inv _ _ _ _ HQ)), GB. rewrite <- Qmult_assoc, (Qmult_comm (3 # 2)), Qmult_assoc, Q. reflexivity.
Qed.

(** Without a parameter that is used there is no run. *)
Theorem C145_needed : forall pr skip e j, job_of pr skip e = Ok j ->
  (forall x, In x ["c_cst"; "pi_cst"; "semi_major_axis_cst"; "semi_minor_axis_cst"; "flat_coeff_cst"; "sec_in_day_cst"] -> dget x (pr_cst pr) <> None) /\
  (forall x, In x ["prf_sar_chd"; "mean_sat_alt_chd"; "freq_ku_chd"; "pulse_length_chd"; "bw_ku_chd"; "N_ku_pulses_burst_chd"; "N_samples_sar_chd"] ->
     dget x (h_data (pr_chd pr)) <> None) /\
  (forall x, In x ["flag_cal1_corrections_cnf"; "flag_cal2_correction_cnf"; "flag_doppler_range_correction_cnf"; "flag_slant_range_correction_cnf";
     "flag_surface_focusing_cnf"; "flag_stack_masking_cnf"; "flag_avoid_zeros_in_multilooking_cnf"; "N_looks_stack_cnf"; "zp_fact_range_cnf";
     "flag_cal2_table_index_cnf"; "flag_azimuth_processing_method_cnf"; "flag_antenna_weighting_cnf"] -> dget x (pr_cnf pr) <> None).
Proof.
  intros pr skip e j H. destruct (C145_drawn pr skip e j H) as (A & B & C & S1 & _ & S2 & S3 & S4 & S5 & _ & _ & _ & _ & (s & M & _) & _ & (w & (jw & W & _) & _) & _).
  assert (SH : forall d x r, shows text d x r -> dget x d <> None) by (intros d x r (q & (jj & D & _) & _); congruence).
  assert (SW : forall d x b, switched d x b -> dget x d <> None) by (intros d x b (jj & D & _); congruence).
  assert (SI : forall d x k, sized itext d x k -> dget x d <> None) by (intros d x k (jj & D & _); congruence).
  assert (SC : forall d x k, counted d x k -> dget x d <> None) by (intros d x k (jj & D & _); congruence).
  split; [|split]; intros x I; cbn [In] in I; repeat (destruct I as [<-|I]); try contradiction.
  1-6: eapply SH, A; unfold constants; cbn [In]; eauto 12.
  1-5: eapply SH, B; unfold characteristics; cbn [In]; eauto 12.
  1-2: eapply SI; eassumption.
  1-7: eapply SW, C; unfold switches; cbn [In]; eauto 12.
  1-2: eapply SC; eassumption.
  - eapply SI; eassumption.
  - congruence.
  - congruence.
Qed.

(** The files say nothing of the bound for the loops of normalize: with a positive pi
    there is a bound with which the run on any recording ends. *)
Definition with_bound (e : parts) (f : nat) : parts :=
  mk_parts f (e_pick e) (e_az e) (e_corr e) (e_w1 e) (e_w2 e) (e_weight e) (e_rest e) (e_nan e).
Lemma setup_bound : forall pr skip e f, setup_of text itext pr skip (with_bound e f) =
  match setup_of text itext pr skip e with Ok u => Ok (with_fuel u f) | Err x => Err x end.
Proof.
  intros pr skip e f. unfold setup_of. cbv zeta.
  repeat match goal with |- bind ?r _ = match bind ?r _ with _ => _ end => destruct r; cbn [bind]; [|reflexivity] end. reflexivity.
Qed.
Theorem C145_ends : forall pr skip e j pi input, job_of pr skip e = Ok j -> has text (pr_cst pr) "pi_cst" pi -> (0 < pi)%Q ->
  exists f0, forall f, (f0 <= f)%nat -> exists j', job_of pr skip (with_bound e f) = Ok j' /\
    j_o j' = j_o j /\ j_g j' = j_g j /\ j_u j' = with_fuel (j_u j) f /\ j_v j' = j_v j /\ j_ext j' = j_ext j /\
    fuel_enough (j_u j') input /\ forall cancel w, whole (j_u j') cancel input <> WFuel w.
Proof.
  intros pr skip e j pi input J HP P.
  assert (K : (0 < k_pi (SurfModel.g_k (u_g (j_u j))))%R).
  { destruct (C145_drawn pr skip e j J) as (A & _). destruct (A "pi_cst" _ ltac:(unfold constants; cbn [In]; tauto)) as (q & HQ & E). rewrite E.
    rewrite (DerProps.has_fun text _ _ _ _ HQ HP). apply Qlt_Rlt in P. unfold Q2R in P at 1. cbn in P. lra. }
  destruct (WholeProps.C122_ends (j_u j) input K) as (f0 & F). exists f0. intros f L. destruct (F f L) as (F1 & F2).
  unfold JobModel.job_of in J. apply bind_ok in J as (op & HO & J). apply bind_ok in J as (g & HG & J).
  apply bind_ok in J as (u & HU & J). apply bind_ok in J as (v & HV & J). apply bind_ok in J as (x & HX & J). injection J as <-. cbn [j_u] in F1, F2.
  eexists. split.
  { unfold JobModel.job_of. rewrite HO. cbn [bind]. rewrite HG. cbn [bind]. rewrite setup_bound, HU. cbn [bind].
    change (looks_of_files text pr (with_bound e f)) with (looks_of_files text pr e). rewrite HV. cbn [bind]. rewrite HX. cbn [bind]. reflexivity. }
  cbn [j_o j_g j_u j_v j_ext]. do 5 (split; [reflexivity|]). split; [exact F1|exact F2].
Qed.

(** * The files shipped *)
Section Shipped.
Variable file : string -> option json.
Variable collect : dict json -> bool.
Variables (n f1 f2 f3 : string) (o : option string) (pr : processor) (skip : bool) (e : parts).
Hypothesis F1 : file f1 = Some (JObj cnf_default).
Hypothesis F2 : file f2 = Some (JObj cst_default).
Hypothesis F3 : file f3 = Some (JObj chd_default).
Hypothesis NP : new_processor text file collect (Some n) (Some f1) (Some f2) (Some f3) o = Ok pr.

(** With the files shipped there is a run: 64 pulses, 128 samples, padded to
    256, stacks of 240, the approximate method, no focusing, no region, no weights of
    the antenna, the extended format, a gap above 3/2 / 78.53069 s. *)
Theorem C145_shipped : exists j, job_of pr skip e = Ok j /\
  let u := j_u j in
  c_N (u_cf u) = 64%nat /\ c_looks (u_cf u) = 240%nat /\ c_approx (u_cf u) = true /\ (c_gap (u_cf u) * (7853069 # 100000) == 3 # 2)%Q /\
  GcorrModel.k_n (u_k u) = 128%nat /\ u_zp u = 2%nat /\ u_cal1 u = true /\ u_cal2 u = true /\ n_cal2 (j_o j) = 2%nat /\
  SurfModel.g_focus (u_g u) = false /\ j_g j = everywhere /\ j_ext j = true /\
  WaveModel.v_mask (j_v j) = true /\ WaveModel.v_lo (j_v j) = None /\ WaveModel.v_hi (j_v j) = None /\
  WaveModel.v_weight (j_v j) = None /\ WaveModel.v_avoid (j_v j) = true /\
  k_c (SurfModel.g_k (u_g u)) = 299792458%R /\ (0 < k_pi (SurfModel.g_k (u_g u)))%R /\
  u_fuel u = e_fuel e /\ j_rest j = e_rest e.
Proof.
  unfold new_processor in NP. destruct (_ && _)%bool; [|discriminate NP]. unfold opened in NP. rewrite F1, F2, F3 in NP. cbn [bind] in NP.
  set (l1 := load cnf_class (Some (JObj cnf_default)) []) in NP. set (l2 := load cst_class (Some (JObj cst_default)) []) in NP. set (l3 := new_chd (Some (JObj chd_default)) []) in NP.
  vm_compute in l1. vm_compute in l2. vm_compute in l3. subst l1 l2 l3. cbn [conf bind fst] in NP. destruct (collect _); [|discriminate NP].
  match type of NP with match ?r with _ => _ end = _ => let r' := eval vm_compute in r in change r with r' in NP end. cbv iota beta in NP. injection NP as <-.
  eexists. split.
  - cbv -[Q2R INR GeoModel.radians SurfModel.target_of]. reflexivity.
  - cbn. repeat split; try reflexivity; unfold Q2R; cbn; lra.
Qed.

(** ... and what is proved of runs holds of it: any file that can be opened gives an
    L1B file with a record for each product; each shows a surface seen by at least
    120 records, and has the variables taken over from the record whose look is
    nearest to the right angle. *)
Theorem C145_shipped_run : forall j cancel fi input, job_of pr skip e = Ok j -> shaped 240 (e_rest e) -> complete (j_o j) fi ->
  delivered (j_o j) (j_g j) fi = Ok input -> fuel_enough (j_u j) input ->
  exists answers out, l1b j cancel fi = Some (answers, out) /\
    let ps := x_out (wfinal (whole (j_u j) cancel input)) in
    answers = repeat None (length ps) /\ WriterModel.w_len out = length ps /\
    forall i p, nth_error ps i = Some p ->
      (120 <= length (pr_stack p))%nat /\ seen_by_stack (j_u j) input p /\
      (WaveModel.chosen (j_u j) input p <> [] ->
       exists q, first_nearest (k_pi (SurfModel.g_k (u_g (j_u j)))) (WaveModel.chosen (j_u j) input p) q /\ (q < f_size fi)%nat /\
         forall b, In b copied -> said out i b 0 = Some (number_at fi q b)).
Proof.
  intros j cancel fi input J SH CO D FE. destruct C145_shipped as (j' & J' & S). rewrite J in J'. injection J' as <-. cbv zeta in S.
  destruct S as (_ & LK & _ & _ & KN & ZP & _ & _ & _ & NF & EV & _ & _ & _ & _ & _ & _ & _ & _ & _ & RE).
  assert (U : usual j) by (unfold usual; rewrite LK, KN, ZP, RE; split; [lia|split; [lia|exact SH]]).
  destruct (EndProps.C141_file j cancel fi U) as (EX & FI). destruct (proj2 EX (ex_intro _ input D)) as ([answers out] & L).
  exists answers, out. split; [exact L|]. destruct (FI input answers out D L) as (A & W & _). split; [exact A|]. split; [exact W|].
  intros i p N. split; [|split].
  - destruct (WholeProps.C122_products (j_u j) cancel input FE) as (_ & P). destruct (P p (nth_error_In _ _ N)) as (P1 & _). rewrite LK in P1. exact P1.
  - pose proof (WholeProps.C122_stack (j_u j) cancel input NF) as P. rewrite Forall_forall in P. exact (P p (nth_error_In _ _ N)).
  - intros NE. destruct (EndProps.C141_copied j cancel fi input answers out i p U CO NF D L N NE) as (q & Q1 & _ & _ & Q2 & _ & Q3).
    assert (FR : first_record (j_g j) fi = 0%nat) by (rewrite EV; reflexivity). rewrite FR in Q2, Q3. exists q. split; [exact Q1|]. split; [exact Q2|exact Q3].
Qed.
End Shipped.
End Files.
Print Assumptions C145_drawn.
Print Assumptions C145_aimed.
Print Assumptions C145_agree.
Print Assumptions C145_needed.
Print Assumptions C145_ends.
Print Assumptions C145_shipped.
Print Assumptions C145_shipped_run.

(** The files shipped, with other answers: a target, a region, the other format, sizes
    given as texts and with fractions, truth values given as numbers. *)
Definition the_text (s : string) : option Q := if (s =? "17825.311")%string then Some (17825311 # 1000)%Q else None.
Definition the_int (s : string) : option Z := if (s =? "64")%string then Some 64%Z else None.
Definition put (k : string) (v : json) (d : dict json) : dict json := dset k v d.
Definition the_cnf : dict json :=
  put "flag_surface_focusing_cnf" (JNum 1) (put "min_lat_cnf" (JNum (-10 # 1)) (put "output_format_flag_cnf" (JStr "sentinel-3")
  (put "flag_azimuth_processing_method_cnf" (JStr "exact") (put "zp_fact_range_cnf" (JBool true)
  (put "flag_cal1_corrections_cnf" (JStr "false") (put "flag_cal2_correction_cnf" (JNum 0)
  (match load cnf_class (Some (JObj cnf_default)) [] with Ok (d, _) => d | Err _ => [] end))))))).
Definition the_chd : dict json :=
  put "N_ku_pulses_burst_chd" (JStr "64") (put "N_samples_sar_chd" (JNum (257 # 2)) (put "prf_sar_chd" (JStr "17825.311")
  (match load chd_class (Some (JObj chd_default)) [] with Ok (d, _) => d | Err _ => [] end))).
Definition the_pr : processor :=
  mk_processor (match load cst_class (Some (JObj cst_default)) [] with Ok (d, _) => d | Err _ => [] end) (mk_chd the_chd JNull JNull) the_cnf (1 # 50).
Definition the_parts : parts :=
  mk_parts 5 (fun _ => []) (fun _ => false) (fun _ => false) (fun _ => false) (fun _ => false) (fun _ => None) (fun _ _ => WriterModel.VNum 0%R) 0%R.
Example C145_example :
  (exists j, job_of the_text the_int the_pr true the_parts = Ok j /\ c_N (u_cf (j_u j)) = 64%nat /\ GcorrModel.k_n (u_k (j_u j)) = 128%nat /\
    u_zp (j_u j) = 1%nat /\ u_cal1 (j_u j) = true /\ u_cal2 (j_u j) = false /\ SurfModel.g_focus (u_g (j_u j)) = true /\
    min_lat (j_g j) = Some (-10 # 1)%Q /\ max_lat (j_g j) = None /\ j_ext j = false /\ c_approx (u_cf (j_u j)) = false /\ c_l1bs (u_cf (j_u j)) = false /\
    u_prf (j_u j) = Q2R (17825311 # 1000)) /\
  job_of (fun _ => None) the_int the_pr true the_parts = Err (DConf EConv) /\
  job_of the_text the_int (mk_processor (pr_cst the_pr) (pr_chd the_pr) (put "flag_azimuth_processing_method_cnf" (JNum 1) the_cnf) (1 # 50)) true the_parts = Err (DConf EConv).
Proof.
  split; [|split].
  - eexists. split; [cbv -[Q2R INR GeoModel.radians SurfModel.target_of]; reflexivity|]. cbn. repeat split.
  - vm_compute. reflexivity.
  - cbv -[Q2R INR GeoModel.radians SurfModel.target_of]. reflexivity.
Qed.
(** A processor can be made of the files shipped. *)
Example C145_example_shipped : exists pr,
  new_processor (fun _ => None) (fun f => if (f =? "n")%string then Some (JObj cnf_default) else if (f =? "s")%string then Some (JObj cst_default) else if (f =? "h")%string then Some (JObj chd_default) else None)
    (fun _ => true) (Some "x") (Some "n") (Some "s") (Some "h") (Some "out") = Ok pr.
Proof. eexists. vm_compute. reflexivity. Qed.
