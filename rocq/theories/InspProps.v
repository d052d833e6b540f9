(** C97-C101: inspection and comparison of products. *)
From Coq Require Import String List ZArith Reals Bool Arith Lra Lia Permutation.
From Verif Require Import Common WriterModel SchModel SchSpec InspModel InspSpec InspProofs.
Import ListNotations.
Open Scope string_scope.
Open Scope R_scope.

(** * C97: every product with records can be inspected *)

(** Any file of one of the three products with at least one record and one
    sample opens; what is read are the product's positions and times, and the
    range shown is the extent of the waveforms. *)
Theorem C97_products : forall b p n m d, In (b, p) tagged -> product_file p n m d ->
  (0 < n)%nat -> (0 < m)%nat ->
  exists i, inspect d = Ok i /\ i_kind i = kind_tag b /\
    i_lat i = d_vec d ("lat" ++ suffix_of b) /\ i_lon i = d_vec d ("lon" ++ suffix_of b) /\
    i_time i = d_vec d ("time" ++ suffix_of b) /\
    rectangle n m (i_waves i) /\ bounds (List.concat (i_waves i)) (i_range i).
Proof.
  intros b p n m d Hp Hf Hn Hm.
  destruct (inspect_reads _ _ _ _ _ Hp Hf Hn Hm) as (w & r & Hs & Hr & Hw & Hi).
  eexists. split; [exact Hi|]. cbn [i_kind i_lat i_lon i_time i_waves i_range].
  apply extent_bounds in Hr. destruct b; repeat split; try reflexivity; try apply Hw; try apply Hr; assumption.
Qed.
Print Assumptions C97_products.

(** A product without records cannot be opened. *)
Theorem C97_empty : forall b p m d, In (b, p) tagged -> product_file p 0 m d ->
  inspect d = Err EEmptyRange.
Proof. exact inspect_empty. Qed.
Print Assumptions C97_empty.

(** A file opens only if it has the five variables of one kind of product. *)
Theorem C97_others : forall d,
  ((forall b, ~ In ("time" ++ suffix_of b) (d_names d)) -> inspect d = Err ENeither) /\
  (forall i, inspect d = Ok i -> exists b, forall x,
     In x ["lat"; "lon"; "time"; "i2q2_meas_ku"; "scale_factor_ku"] ->
     In (x ++ suffix_of b) (d_names d)).
Proof.
  intros d. split.
  - intros H. apply inspect_neither. intros [|]; [apply (H false)|apply (H true)].
  - intros i Hi. destruct (inspect_sound _ _ Hi) as (H & _).
    exists (match i_kind i with L1B => false | L1BS => true end).
    intros x Hx. assert (E : (x ++ suffix_of match i_kind i with L1B => false | L1BS => true end)%string
                             = var_of x (i_kind i)) by (destruct (i_kind i); reflexivity).
    rewrite E. apply H. unfold needed. apply (in_map (fun b => var_of b (i_kind i))). exact Hx.
Qed.
Print Assumptions C97_others.

(** A file with one record of a product; fields not named are 0. *)
Definition env_of (a b sigma scale : R) : env :=
  {| e_surf := fun f => if f =? "waveform_multilooked"
                        then VVec 2 (fun j => match j with O => a | _ => b end)
                        else if f =? "sigma0_scaling_factor" then VNum sigma else VNum 0;
     e_burst := fun _ => VNum 0;
     e_local := fun f => if f =? "scale_factor" then VNum scale else VNum 0;
     e_light := 1 |}.
Definition file_of (p : product) (e : env) : dataset :=
  {| d_names := map v_name (p_vars p);
     d_dims := fun x => match List.find (fun v => v_name v =? x) (p_vars p) with
                        | Some v => v_dims v | None => [] end;
     d_size := fun x => if x =? "echo_sample_ind" then 2%nat else 1%nat;
     d_vec := fun x => match find_assoc x (p_writes p) with
                       | Some s => match eval e s with Some (VNum y) => [y] | _ => [0] end
                       | None => [0] end;
     d_mat := fun x => match find_assoc x (p_writes p) with
                       | Some s => match eval e s with Some (VVec _ f) => [[f 0%nat; f 1%nat]] | _ => [[0; 0]] end
                       | None => [[0; 0]] end |}.

Lemma file_of_product : forall p a b s c, product_file p 1 2 (file_of p (env_of a b s c)).
Proof.
  intros. repeat split; cbn [file_of d_names d_vec d_mat].
  - intros x. destruct (find_assoc x (p_writes p)) as [q|]; [|reflexivity].
    destruct (eval _ q) as [[]|]; reflexivity.
  - intros x. destruct (find_assoc x (p_writes p)) as [q|]; [|reflexivity].
    destruct (eval _ q) as [[]|]; reflexivity.
  - intros x r. destruct (find_assoc x (p_writes p)) as [q|]; [destruct (eval _ q) as [[]|]|];
      intros [<-|[]]; reflexivity.
Qed.

Lemma eval_two : forall a b s c q k f, eval (env_of a b s c) q = Some (VVec k f) -> k = 2%nat.
Proof.
  intros a b s c. induction q; intros k g H; cbn [eval] in H.
  - discriminate.
  - injection H as H. cbn [env_of e_surf] in H. destruct (f =? _); [now injection H|].
    destruct (f =? _); discriminate.
  - discriminate.
  - injection H as H. cbn [env_of e_local] in H. destruct (x =? _); discriminate.
  - discriminate.
  - discriminate.
  - destruct (eval _ q) as [[| |]|]; try discriminate. cbn in H. injection H as <- _. now apply (IHq _ f).
  - destruct (eval _ q) as [[| |]|]; try discriminate. cbn in H. injection H as <- _. now apply (IHq _ f).
  - destruct (eval _ q1) as [[|n h|]|]; try discriminate; destruct (eval _ q2) as [[| |]|]; try discriminate; cbn in H;
      injection H as <- _; now apply (IHq1 _ h).
  - destruct (eval _ q1) as [[|n h|]|]; try discriminate; destruct (eval _ q2) as [[| |]|]; try discriminate; cbn in H;
      injection H as <- _; now apply (IHq1 _ h).
  - destruct (eval _ q1) as [[|n h|]|]; try discriminate; destruct (eval _ q2) as [[| |]|]; try discriminate; cbn in H;
      injection H as <- _; now apply (IHq1 _ h).
Qed.

Fixpoint distinct (l : list string) : bool :=
  match l with [] => true | x :: r => negb (existsb (String.eqb x) r) && distinct r end.
Lemma distinct_find : forall {B} (l : list (string * B)) x y, distinct (map fst l) = true ->
  In (x, y) l -> find_assoc x l = Some y.
Proof.
  intros B. unfold find_assoc. induction l as [|[a b] l IH]; intros x y H Hi; [contradiction|].
  cbn [map distinct fst] in H. apply andb_true_iff in H as (Ha & Hd). cbn [List.find fst].
  destruct Hi as [E|Hi].
  - injection E as -> ->. now rewrite String.eqb_refl.
  - destruct (a =? x) eqn:E.
    + apply String.eqb_eq in E. subst a. apply negb_true_iff in Ha.
      assert (X : existsb (String.eqb x) (map fst l) = true).
      { apply existsb_exists. exists x. split; [|apply String.eqb_refl]. apply in_map_iff. now exists (x, y). }
      congruence.
    + specialize (IH x y Hd Hi). exact IH.
Qed.

Lemma file_of_holds : forall b p x y s c, In (b, p) tagged ->
  holds_records p [env_of x y s c] (file_of p (env_of x y s c)).
Proof.
  assert (D : forallb (fun q => distinct (map fst (p_writes (snd q)))) tagged = true) by (vm_compute; reflexivity).
  rewrite forallb_forall in D.
  intros b p x y s c Hp. specialize (D _ Hp). cbn [snd] in D.
  intros name q Hq. pose proof (distinct_find _ _ _ D Hq) as F. cbn [file_of d_vec d_mat map]. rewrite F.
  split.
  - intros [|v [|? ?]] H; try discriminate. cbn [map] in H. injection H as H. rewrite H. reflexivity.
  - intros m [|f [|? ?]] H; try discriminate. cbn [map] in H. injection H as H.
    pose proof (eval_two _ _ _ _ _ _ _ H) as ->. rewrite H. reflexivity.
Qed.

Lemma env_of_surf : forall a b s c,
  surf_env (env_of a b s c) 2 (fun j => match j with O => a | _ => b end) s c.
Proof. intros. repeat split. Qed.

Example C97_example : forall b p, In (b, p) tagged -> exists i,
  inspect (file_of p (env_of 1 2 3 4)) = Ok i /\ i_kind i = kind_tag b.
Proof.
  intros b p Hp. destruct (C97_products b p 1 2 _ Hp (file_of_product p 1 2 3 4)) as (i & H & K & _); try lia.
  now exists i.
Qed.

(** * C98: the inspected waveform is the processed one *)

(** Every sample shown is the sample of the surface's waveform times a number
    that depends on the record only: the sigma0 scaling factor, divided or
    multiplied by the writer's scale factor. *)
Theorem C98_proportional_partial : forall b p es n m d i,
  In (b, p) tagged -> product_file p n m d -> holds_records p es d ->
  (forall e, In e es -> exists w sigma scale, surf_env e m w sigma scale) ->
  inspect d = Ok i ->
  forall t e w sigma scale j, nth_error es t = Some e -> surf_env e m w sigma scale -> (j < m)%nat ->
  exists f, shown_factor p sigma scale f /\ at_ (i_waves i) t j = Some (f * w j).
Proof. exact product_waveform. Qed.
Print Assumptions C98_proportional_partial.

Lemma shown_pair : forall b p x y s c, In (b, p) tagged -> exists i f,
  inspect (file_of p (env_of x y s c)) = Ok i /\ shown_factor p s c f /\ i_waves i = [[f * x; f * y]].
Proof.
  intros b p x y s c Hp.
  destruct (C97_products b p 1 2 _ Hp (file_of_product p x y s c)) as (i & H & K & _ & _ & _ & W & _); try lia.
  assert (ES : forall e, In e [env_of x y s c] -> exists w sigma scale, surf_env e 2 w sigma scale).
  { intros e [<-|[]]. do 3 eexists. apply env_of_surf. }
  pose proof (product_waveform _ _ _ _ _ _ _ Hp (file_of_product p x y s c) (file_of_holds _ _ x y s c Hp) ES H
                0%nat _ _ _ _ 0%nat eq_refl (env_of_surf x y s c)) as P0.
  pose proof (product_waveform _ _ _ _ _ _ _ Hp (file_of_product p x y s c) (file_of_holds _ _ x y s c Hp) ES H
                0%nat _ _ _ _ 1%nat eq_refl (env_of_surf x y s c)) as P1.
  destruct P0 as (f & F0 & A0); [lia|]. destruct P1 as (g & F1 & A1); [lia|].
  assert (f = g).
  { assert (E1 : ext_product <> std_product) by (intros E; apply (f_equal (fun p => List.length (p_vars p))) in E; discriminate).
    assert (E2 : ext_product <> l1bs_product) by (intros E; apply (f_equal (fun p => List.length (p_vars p))) in E; discriminate).
    assert (E3 : std_product <> l1bs_product) by (intros E; apply (f_equal (fun p => List.length (p_vars p))) in E; discriminate).
    clear - F0 F1 E1 E2 E3.
    destruct F0 as [(E & ->)|[(E & ->)|(E & ->)]]; destruct F1 as [(G & ->)|[(G & ->)|(G & ->)]];
      try reflexivity; rewrite E in G; congruence. }
  subst g. exists i, f. split; [exact H|]. split; [exact F0|].
  destruct W as (W1 & W2). destruct (i_waves i) as [|r [|? ?]]; try discriminate.
  pose proof (W2 r (or_introl eq_refl)) as W3. destruct r as [|u [|v [|? ?]]]; try discriminate.
  unfold at_ in A0, A1. cbn [nth_error] in A0, A1. congruence.
Qed.

(** For each product: a file whose only record has the waveform (1, 2) and a
    sigma0 scaling factor of -1 dB is shown with the order of the two samples
    reversed, and neither sample has its value. *)
Theorem C98_inverted_refuted : forall b p, In (b, p) tagged -> exists e d i u v,
  product_file p 1 2 d /\ holds_records p [e] d /\
  surf_env e 2 (fun j => match j with O => 1 | _ => 2 end) (-1) 1 /\
  inspect d = Ok i /\ i_waves i = [[u; v]] /\ v < u /\ u <> 1 /\ v <> 2.
Proof.
  intros b p Hp. destruct (shown_pair b p 1 2 (-1) 1 Hp) as (i & f & H & F & W).
  exists (env_of 1 2 (-1) 1), (file_of p (env_of 1 2 (-1) 1)), i, (f * 1), (f * 2).
  split; [apply file_of_product|]. split; [eapply file_of_holds; eassumption|].
  split; [apply env_of_surf|]. split; [exact H|]. split; [exact W|].
  assert (f = -1) as ->. { destruct F as [(_ & ->)|[(_ & ->)|(_ & ->)]]; lra. }
  lra.
Qed.
Print Assumptions C98_inverted_refuted.

(** A sigma0 scaling factor of 0 dB shows every waveform as zero. *)
Theorem C98_zero_refuted : forall b p x y, In (b, p) tagged -> exists e d i,
  product_file p 1 2 d /\ holds_records p [e] d /\
  surf_env e 2 (fun j => match j with O => x | _ => y end) 0 1 /\
  inspect d = Ok i /\ i_waves i = [[0; 0]].
Proof.
  intros b p x y Hp. destruct (shown_pair b p x y 0 1 Hp) as (i & f & H & F & W).
  exists (env_of x y 0 1), (file_of p (env_of x y 0 1)), i.
  split; [apply file_of_product|]. split; [eapply file_of_holds; eassumption|].
  split; [apply env_of_surf|]. split; [exact H|]. rewrite W.
  assert (f = 0) as ->. { destruct F as [(_ & ->)|[(_ & ->)|(_ & ->)]]; lra. }
  repeat f_equal; lra.
Qed.
Print Assumptions C98_zero_refuted.

Example C98_example : exists i,
  inspect (file_of std_product (env_of 1 2 3 4)) = Ok i /\ i_waves i = [[3; 6]].
Proof.
  destruct (shown_pair false std_product 1 2 3 4) as (i & f & H & F & W); [cbn; tauto|].
  exists i. split; [exact H|]. rewrite W.
  assert (f = 3) as ->.
  { destruct F as [(E & _)|[(_ & ->)|(E & _)]]; [|reflexivity|];
    apply (f_equal (fun p => List.length (p_vars p))) in E; discriminate. }
  repeat f_equal; lra.
Qed.

(** * C99: display limits *)

(** Limits that are absent or not zero are used as given; those of the
    three-dimensional plots always; the two limits of a histogram differ. *)
Theorem C99_limits_partial : forall i vmin vmax, vmin <> Some 0 -> vmax <> Some 0 ->
  im_lo (waveform_im i vmin vmax) = wanted vmin (fst (i_range i)) /\
  im_hi (waveform_im i vmin vmax) = wanted vmax (snd (i_range i)) /\
  im_data (waveform_im i vmin vmax) = i_waves i /\
  fst (waveform_hist i vmin vmax) = wanted vmin (fst (i_range i)) /\
  (fst (waveform_hist i vmin vmax) <> wanted vmax (snd (i_range i)) ->
   snd (waveform_hist i vmin vmax) = wanted vmax (snd (i_range i))).
Proof.
  intros i vmin vmax H1 H2.
  assert (G : forall v d, v <> Some 0 -> given v d = wanted v d).
  { intros [v|] d H; [|reflexivity]. apply given_some. intros Z0. apply H. now f_equal. }
  cbn [waveform_im im_lo im_hi im_data]. unfold waveform_hist, hist_limits. cbn [fst snd].
  rewrite !G by assumption. repeat split; try reflexivity.
  intros H. destruct (Req_EM_T _ _); [contradiction|reflexivity].
Qed.
Print Assumptions C99_limits_partial.

Theorem C99_3d : forall i zmin zmax,
  zlim i zmin zmax = (wanted zmin (fst (i_range i)), wanted zmax (snd (i_range i))).
Proof. reflexivity. Qed.
Print Assumptions C99_3d.

Theorem C99_hist : forall i vmin vmax,
  fst (waveform_hist i vmin vmax) <> snd (waveform_hist i vmin vmax).
Proof. intros. apply hist_limits_distinct. Qed.
Print Assumptions C99_hist.

(** Without limits the image shows everything. *)
Theorem C99_all_shown : forall d i x, inspect d = Ok i -> In x (List.concat (i_waves i)) ->
  im_lo (waveform_im i None None) <= x <= im_hi (waveform_im i None None) /\
  fst (waveform_hist i None None) <= x <= snd (waveform_hist i None None).
Proof.
  intros d i x H Hx. destruct (inspect_sound _ _ H) as (_ & _ & (_ & _ & B)). specialize (B _ Hx).
  cbn [waveform_im im_lo im_hi given]. split; [exact B|]. unfold waveform_hist, hist_limits. cbn [given fst snd].
  destruct (Req_EM_T _ _); lra.
Qed.
Print Assumptions C99_all_shown.

(** A limit of zero is ignored: data from -2 to -1 asked for up to 0 is shown
    up to -1, and data from 1 to 2 asked for from 0 is shown from 1. *)
Theorem C99_zero_refuted :
  (exists d i, inspect d = Ok i /\ im_hi (waveform_im i None (Some 0)) = -1) /\
  (exists d i, inspect d = Ok i /\ im_lo (waveform_im i (Some 0) None) = 1 /\
     fst (waveform_hist i (Some 0) None) = 1 /\ fst (zlim i (Some 0) None) = 0).
Proof.
  split.
  - destruct (shown_pair false std_product 1 2 (-1) 1) as (i & f & H & F & W); [cbn; tauto|].
    assert (f = -1) as -> by (destruct F as [(_ & ->)|[(_ & ->)|(_ & ->)]]; lra).
    exists (file_of std_product (env_of 1 2 (-1) 1)), i. split; [exact H|].
    destruct (inspect_sound _ _ H) as (_ & _ & B). rewrite W in B.
    cbn [waveform_im im_hi]. rewrite given_zero.
    assert (E : i_range i = (-2, -1)).
    { apply (bounds_unique _ _ _ B). cbn. repeat split; cbn; try lra.
      - destruct H0 as [<-|[<-|[]]]; lra.
      - destruct H0 as [<-|[<-|[]]]; lra. }
    now rewrite E.
  - destruct (shown_pair false std_product 1 2 1 1) as (i & f & H & F & W); [cbn; tauto|].
    assert (f = 1) as -> by (destruct F as [(_ & ->)|[(_ & ->)|(_ & ->)]]; lra).
    exists (file_of std_product (env_of 1 2 1 1)), i. split; [exact H|].
    destruct (inspect_sound _ _ H) as (_ & _ & B). rewrite W in B.
    assert (E : i_range i = (1, 2)).
    { apply (bounds_unique _ _ _ B). cbn. repeat split; cbn; try lra.
      - destruct H0 as [<-|[<-|[]]]; lra.
      - destruct H0 as [<-|[<-|[]]]; lra. }
    cbn [waveform_im im_lo]. unfold waveform_hist, hist_limits, zlim. cbn [fst snd].
    rewrite given_zero, E. cbn [fst snd]. repeat split.
Qed.
Print Assumptions C99_zero_refuted.

(** Choosing the variable in the notebook replaces the lower limit by the
    upper one; drawing lines outside the notebook replaces the upper by the
    lower. *)
Theorem C99_swapped_refuted : forall d i z a b g,
  a <> 0 -> b <> 0 ->
  (im_chosen d i z (Some a) (Some b) = Ok (Some g) -> im_lo g = b /\ im_hi g = b) /\
  (im_line d i z (Some a) (Some b) = Ok (Some g) -> im_lo g = a /\ im_hi g = a).
Proof.
  intros d i z a b g Ha Hb. unfold im_chosen, im_line, plot_im.
  destruct (negb (has d z)); [split; discriminate|].
  destruct (negb (List.length (d_dims d z) =? 2)%nat); [split; discriminate|].
  destruct (extent _) as [r|e]; cbn [bind]; [|split; discriminate].
  rewrite !given_some by assumption.
  split; intros H; injection H as <-; split; reflexivity.
Qed.
Print Assumptions C99_swapped_refuted.

Lemma waves_dims : d_dims (file_of std_product (env_of 1 2 3 4)) "i2q2_meas_ku_l1b_echo_sar_ku"
  = ["time_l1b_echo_sar_ku"; "echo_sample_ind"].
Proof. vm_compute. reflexivity. Qed.
Lemma waves_has : has (file_of std_product (env_of 1 2 3 4)) "i2q2_meas_ku_l1b_echo_sar_ku" = true.
Proof. vm_compute. reflexivity. Qed.
Lemma waves_mat : d_mat (file_of std_product (env_of 1 2 3 4)) "i2q2_meas_ku_l1b_echo_sar_ku" = [[1; 2]].
Proof. reflexivity. Qed.

Example C99_example : exists i g h,
  inspect (file_of std_product (env_of 1 2 3 4)) = Ok i /\
  im_chosen (file_of std_product (env_of 1 2 3 4)) i "i2q2_meas_ku_l1b_echo_sar_ku" (Some 1) (Some 5) = Ok (Some g) /\
  im_lo g = 5 /\
  im_line (file_of std_product (env_of 1 2 3 4)) i "i2q2_meas_ku_l1b_echo_sar_ku" (Some 1) (Some 5) = Ok (Some h) /\
  im_hi h = 1.
Proof.
  destruct C98_example as (i & H & W). exists i.
  unfold im_chosen, im_line, plot_im. rewrite waves_has, waves_dims, waves_mat.
  cbn [negb List.length Nat.eqb List.concat app extent bind].
  eexists _, _. split; [exact H|]. repeat split; cbn [im_lo im_hi]; apply given_some; lra.
Qed.

(** * C100: images of a chosen variable *)

(** A figure is made exactly for the two-dimensional variables of the file
    that have values; other names make none and raise nothing.  Its limits are
    those of the variable. *)
Theorem C100_figure_partial : forall d i z zmin zmax,
  match im_named d i z zmin zmax with
  | Ok None => ~ (In z (d_names d) /\ List.length (d_dims d z) = 2%nat)
  | Ok (Some g) => In z (d_names d) /\ List.length (d_dims d z) = 2%nat /\
      exists r, bounds (List.concat (d_mat d z)) r /\
        (zmin <> Some 0 -> im_lo g = wanted zmin (fst r)) /\
        (zmax <> Some 0 -> im_hi g = wanted zmax (snd r))
  | Err _ => In z (d_names d) /\ List.concat (d_mat d z) = []
  end.
Proof.
  intros d i z zmin zmax. unfold im_named, plot_im.
  destruct (has d z) eqn:A; cbn [negb].
  - destruct (List.length (d_dims d z) =? 2)%nat eqn:B; cbn [negb].
    + apply Nat.eqb_eq in B. apply has_in in A.
      destruct (extent (List.concat (d_mat d z))) as [r|e] eqn:E; cbn [bind].
      * split; [exact A|]. split; [exact B|]. exists r. split; [now apply extent_bounds|].
        cbn [im_lo im_hi]. split.
        -- destruct zmin as [v|]; intros H; [|reflexivity]. apply given_some. intros Z0. apply H. now f_equal.
        -- destruct zmax as [v|]; intros H; [|reflexivity]. apply given_some. intros Z0. apply H. now f_equal.
      * split; [exact A|]. apply extent_none. now exists e.
    + intros (_ & H). apply Nat.eqb_neq in B. contradiction.
  - intros (H & _). apply has_in in H. congruence.
Qed.
Print Assumptions C100_figure_partial.

(** What is drawn is never the variable: it is the waveforms, whatever the
    name. *)
Theorem C100_data_refuted :
  (forall d i z zmin zmax g, im_named d i z zmin zmax = Ok (Some g) -> im_data g = i_waves i) /\
  exists d i z g, inspect d = Ok i /\ im_named d i z None None = Ok (Some g) /\
    im_data g <> d_mat d z /\ (forall x, In x (List.concat (im_data g)) -> im_hi g < x).
Proof.
  split.
  - intros d i z zmin zmax g. unfold im_named, plot_im.
    destruct (negb (has d z)); [discriminate|].
    destruct (negb (List.length (d_dims d z) =? 2)%nat); [discriminate|].
    destruct (extent _) as [r|e]; cbn [bind]; [|discriminate].
    intros H. injection H as <-. reflexivity.
  - destruct C98_example as (i & H & W).
    eexists (file_of std_product (env_of 1 2 3 4)), i, "i2q2_meas_ku_l1b_echo_sar_ku", _.
    split; [exact H|]. unfold im_named, plot_im. rewrite waves_has, waves_dims, waves_mat.
    cbn [negb List.length Nat.eqb List.concat app extent bind fold_left fst snd].
    split; [reflexivity|]. cbn [im_data im_hi given]. rewrite W. split.
    + intros E. injection E as E _. lra.
    + cbn [List.concat app]. rewrite Rmax_right by lra. intros x [<-|[<-|[]]]; lra.
Qed.
Print Assumptions C100_data_refuted.

(** The names offered are the two-dimensional variables without an empty
    dimension, each as often as it occurs, in the order of the sort. *)
Theorem C100_offered : forall sort d, (forall l, Permutation l (sort l)) -> NoDup (d_names d) ->
  NoDup (offered sort d) /\
  forall z, In z (offered sort d) <->
    In z (d_names d) /\ List.length (d_dims d z) = 2%nat /\
    forall n, In n (d_dims d z) -> (0 < d_size d n)%nat.
Proof.
  intros sort d Hs Hn. unfold offered. split.
  - eapply Permutation_NoDup; [apply Hs|]. now apply NoDup_filter.
  - intros z. set (P := fun z => _). split.
    + intros H. apply (Permutation_in _ (Permutation_sym (Hs _))) in H.
      apply filter_In in H as (H & B). unfold P in B. apply andb_true_iff in B as (B1 & B2).
      split; [exact H|]. split; [now apply Nat.eqb_eq|].
      intros n Hi. rewrite forallb_forall in B2. apply B2 in Hi. now apply Nat.ltb_lt.
    + intros (H & B1 & B2). apply (Permutation_in _ (Hs _)). apply filter_In. split; [exact H|].
      unfold P. rewrite B1. cbn [Nat.eqb andb]. apply forallb_forall. intros n Hi.
      apply Nat.ltb_lt. now apply B2.
Qed.
Print Assumptions C100_offered.

Example C100_example : In "i2q2_meas_ku_l1b_echo_sar_ku"
  (offered (fun l => l) (file_of std_product (env_of 1 2 3 4))) /\
  ~ In "lat_l1b_echo_sar_ku" (offered (fun l => l) (file_of std_product (env_of 1 2 3 4))).
Proof.
  assert (E : offered (fun l => l) (file_of std_product (env_of 1 2 3 4)) = ["beam_ang_l1b_echo_sar_ku"; "i2q2_meas_ku_l1b_echo_sar_ku"])
    by (vm_compute; reflexivity).
  rewrite E. split; [right; now left|]. intros [H|[H|[]]]; discriminate.
Qed.

(** * C101: comparison of two products *)

(** Products with waveforms of the same dimensions can be compared, others
    cannot; the difference is sample by sample and its range is its extent. *)
Theorem C101_delta : forall i1 i2 n1 m1 n2 m2,
  rectangle n1 m1 (i_waves i1) -> rectangle n2 m2 (i_waves i2) ->
  (0 < n1)%nat -> (0 < m1)%nat -> (0 < n2)%nat -> (0 < m2)%nat ->
  ((n1, m1) <> (n2, m2) -> compare_products i1 i2 = Err EShapes) /\
  ((n1, m1) = (n2, m2) -> exists c, compare_products i1 i2 = Ok c /\
     rectangle n1 m1 (c_delta c) /\ bounds (List.concat (c_delta c)) (c_range c) /\
     forall i j x y, at_ (i_waves i1) i j = Some x -> at_ (i_waves i2) i j = Some y ->
       at_ (c_delta c) i j = Some (x - y)).
Proof.
  intros i1 i2 n1 m1 n2 m2 H1 H2 A1 B1 A2 B2. split.
  - intros H. eapply compare_err; eassumption.
  - intros E. injection E as -> ->.
    destruct (compare_ok _ _ _ _ H1 H2 A2 B2) as (c & Hc & W & B & D).
    exists c. split; [exact Hc|]. split; [exact W|]. split; [exact B|].
    intros i j x y Hx Hy. rewrite D. now apply minus_at.
Qed.
Print Assumptions C101_delta.

(** Exchanging the products negates the difference and mirrors its range. *)
Theorem C101_swap : forall i1 i2 n m c c',
  rectangle n m (i_waves i1) -> rectangle n m (i_waves i2) -> (0 < n)%nat -> (0 < m)%nat ->
  compare_products i1 i2 = Ok c -> compare_products i2 i1 = Ok c' ->
  (forall i j x, at_ (c_delta c) i j = Some x <-> at_ (c_delta c') i j = Some (- x)) /\
  c_range c' = (- snd (c_range c), - fst (c_range c)).
Proof. exact compare_swap. Qed.
Print Assumptions C101_swap.

(** The difference is zero exactly when the waveforms are equal. *)
Theorem C101_same : forall i1 i2 n m c,
  rectangle n m (i_waves i1) -> rectangle n m (i_waves i2) -> (0 < n)%nat -> (0 < m)%nat ->
  compare_products i1 i2 = Ok c ->
  (c_range c = (0, 0) <-> forall i j, at_ (i_waves i1) i j = at_ (i_waves i2) i j).
Proof.
  intros i1 i2 n m c H1 H2 Hn Hm Hc.
  destruct (compare_ok _ _ _ _ H1 H2 Hn Hm) as (d & Ed & W & B & D).
  rewrite Ed in Hc. injection Hc as <-. split.
  - intros R i j. destruct B as (_ & _ & B). rewrite R in B. cbn [fst snd] in B.
    destruct (at_ (i_waves i1) i j) as [x|] eqn:Ex.
    + destruct (proj1 (rectangle_at _ _ _ i j H1)) as (Hi & Hj); [now exists x|].
      destruct (delta_at _ _ _ _ H1 H2 _ _ Hi Hj) as (a & b & Ha & Hb & Hab).
      rewrite Ha in Ex. injection Ex as <-. rewrite Hb. f_equal.
      rewrite <- D in Hab. apply at_in_concat in Hab. apply B in Hab. lra.
    + destruct (at_ (i_waves i2) i j) as [y|] eqn:Ey; [|reflexivity].
      destruct (proj1 (rectangle_at _ _ _ i j H2)) as (Hi & Hj); [now exists y|].
      destruct (proj2 (rectangle_at _ _ _ i j H1) (conj Hi Hj)) as (x & Hx). congruence.
  - intros E.
    assert (Z : forall x, In x (List.concat (c_delta d)) -> x = 0).
    { intros x Hx. apply concat_at in Hx as (i & j & H).
      destruct (proj1 (rectangle_at _ _ _ i j W)) as (Hi & Hj); [now exists x|].
      destruct (delta_at _ _ _ _ H1 H2 _ _ Hi Hj) as (a & b & Ha & Hb & Hab).
      rewrite <- D, H in Hab. injection Hab as ->. rewrite (E i j) in Ha. rewrite Ha in Hb. injection Hb as ->. lra. }
    destruct B as (B1 & B2 & _). apply Z in B1, B2.
    destruct (c_range d) as [a b]. cbn [fst snd] in *. now subst.
Qed.
Print Assumptions C101_same.

(** Every difference lies on the axis of the histogram of differences. *)
Theorem C101_delta_axis : forall i1 i2 c x, compare_products i1 i2 = Ok c ->
  In x (List.concat (c_delta c)) -> fst (delta_axis c None None) <= x <= snd (delta_axis c None None).
Proof.
  intros i1 i2 c x H Hx. unfold compare_products in H.
  destruct (_ && _); [|discriminate].
  apply bind_ok in H as (r & Hr & H). injection H as <-. cbn [c_delta] in Hx.
  destruct (extent_bounds _ _ Hr) as (_ & _ & B). specialize (B _ Hx).
  unfold delta_axis, hist_limits. cbn [c_range given fst snd]. destruct (Req_EM_T _ _); lra.
Qed.
Print Assumptions C101_delta_axis.

(** The waveforms themselves are drawn on the axis of the differences: when a
    product is compared with itself, waveforms above 1 are all outside. *)
Theorem C101_axis_refuted : forall i n m c, rectangle n m (i_waves i) -> (0 < n)%nat -> (0 < m)%nat ->
  (forall x, In x (List.concat (i_waves i)) -> 1 < x) ->
  compare_products i i = Ok c ->
  forall x, In x (List.concat (i_waves i)) ->
    ~ (fst (waveforms_axis c None None) <= x <= snd (waveforms_axis c None None)).
Proof.
  intros i n m c H Hn Hm H1 Hc x Hx.
  destruct (compare_same _ _ _ _ _ H eq_refl Hn Hm Hc) as (_ & R).
  unfold waveforms_axis, hist_limits. rewrite R. cbn [given fst snd].
  destruct (Req_EM_T 0 0); specialize (H1 _ Hx); lra.
Qed.
Print Assumptions C101_axis_refuted.

Example C101_example : exists d i c, inspect d = Ok i /\ compare_products i i = Ok c /\
  c_range c = (0, 0) /\ (forall x, In x (List.concat (i_waves i)) -> 1 < x) /\ i_waves i <> [].
Proof.
  destruct C98_example as (i & H & W).
  assert (R : rectangle 1 2 (i_waves i)).
  { rewrite W. split; [reflexivity|]. intros r [<-|[]]. reflexivity. }
  destruct (compare_ok i i 1 2 R R) as (c & Hc & _); try lia.
  exists (file_of std_product (env_of 1 2 3 4)), i, c. split; [exact H|]. split; [exact Hc|].
  split; [eapply compare_same; try eassumption; try reflexivity; lia|].
  rewrite W. split; [|discriminate]. cbn. intros x [<-|[<-|[]]]; lra.
Qed.
