(** Proofs for C97-C101. *)
From Coq Require Import String List ZArith Reals Bool Arith Lra Lia.
From Verif Require Import Common WriterModel SchModel SchSpec InspModel InspSpec.
Import ListNotations.
Open Scope string_scope.
Open Scope R_scope.

(** * Extents *)
Lemma fold_min_spec : forall r x, (fold_left Rmin r x = x \/ In (fold_left Rmin r x) r) /\
  fold_left Rmin r x <= x /\ forall y, In y r -> fold_left Rmin r x <= y.
Proof.
  induction r as [|a r IH]; intros x; cbn [fold_left].
  - repeat split; [now left|lra|]. intros y [].
  - destruct (IH (Rmin x a)) as (H1 & H2 & H3).
    pose proof (Rmin_l x a). pose proof (Rmin_r x a).
    repeat split.
    + destruct H1 as [H1|H1]; [|right; right; exact H1].
      rewrite H1. unfold Rmin. destruct (Rle_dec x a); [left; reflexivity|right; left; reflexivity].
    + lra.
    + intros y [<-|Hy]; [lra|]. now apply H3.
Qed.

Lemma fold_max_spec : forall r x, (fold_left Rmax r x = x \/ In (fold_left Rmax r x) r) /\
  x <= fold_left Rmax r x /\ forall y, In y r -> y <= fold_left Rmax r x.
Proof.
  induction r as [|a r IH]; intros x; cbn [fold_left].
  - repeat split; [now left|lra|]. intros y [].
  - destruct (IH (Rmax x a)) as (H1 & H2 & H3).
    pose proof (Rmax_l x a). pose proof (Rmax_r x a).
    repeat split.
    + destruct H1 as [H1|H1]; [|right; right; exact H1].
      rewrite H1. unfold Rmax. destruct (Rle_dec x a); [right; left; reflexivity|left; reflexivity].
    + lra.
    + intros y [<-|Hy]; [lra|]. now apply H3.
Qed.

Lemma extent_bounds : forall l r, extent l = Ok r -> bounds l r.
Proof.
  intros [|x l] r H; [discriminate|]. cbn [extent] in H. injection H as <-.
  destruct (fold_min_spec l x) as (A1 & A2 & A3).
  destruct (fold_max_spec l x) as (B1 & B2 & B3).
  repeat split; cbn [fst snd].
  - destruct A1 as [E|E]; [rewrite E; now left|now right].
  - destruct B1 as [E|E]; [rewrite E; now left|now right].
  - destruct H as [<-|Hy]; [lra|now apply A3].
  - destruct H as [<-|Hy]; [lra|now apply B3].
Qed.

Lemma extent_total : forall l, l <> [] -> exists r, extent l = Ok r.
Proof. intros [|x l] H; [now elim H|]. eexists. reflexivity. Qed.

Lemma bounds_unique : forall l r r', bounds l r -> bounds l r' -> r = r'.
Proof.
  intros l [a b] [c d] (H1 & H2 & H3) (K1 & K2 & K3). cbn [fst snd] in *.
  pose proof (H3 _ K1). pose proof (H3 _ K2). pose proof (K3 _ H1). pose proof (K3 _ H2).
  f_equal; lra.
Qed.

Lemma bounds_extent : forall l r, bounds l r -> extent l = Ok r.
Proof.
  intros l r H. destruct (extent_total l) as (r' & E).
  - intros ->. destruct H as ([] & _).
  - rewrite E. f_equal. eapply bounds_unique; [|exact H]. now apply extent_bounds.
Qed.

Lemma extent_none : forall l, (exists e, extent l = Err e) <-> l = [].
Proof. intros [|x l]; split; intros H; try easy. - now exists EEmptyRange. - now destruct H. Qed.

(** * Rectangles *)
Lemma concat_nonempty : forall (w : list (list R)) n m,
  rectangle n m w -> (0 < n)%nat -> (0 < m)%nat -> List.concat w <> [].
Proof.
  intros [|r w] n m (H1 & H2) Hn Hm; cbn in H1; [lia|].
  pose proof (H2 r (or_introl eq_refl)). destruct r; cbn in *; [lia|discriminate].
Qed.

Lemma scaled_rectangle : forall s m w n k, scaled s m = Ok w ->
  rectangle n k m -> rectangle n k w.
Proof.
  intros s m w n k H (H1 & H2). unfold scaled in H.
  destruct (List.length s =? List.length m)%nat eqn:E; [|discriminate].
  apply Nat.eqb_eq in E. injection H as <-. split.
  - rewrite map_length, combine_length. lia.
  - intros r Hr. apply in_map_iff in Hr as ([a b] & <- & Hi). apply in_combine_r in Hi.
    cbn. rewrite map_length. now apply H2.
Qed.

Lemma nth_combine : forall {A B} (l : list A) (k : list B) i x y,
  nth_error l i = Some x -> nth_error k i = Some y -> nth_error (combine l k) i = Some (x, y).
Proof.
  induction l as [|a l IH]; intros [|b k] [|i] x y H K; try discriminate; cbn in *.
  - congruence.
  - now apply IH.
Qed.

Lemma scaled_at : forall s m w i j a x, scaled s m = Ok w ->
  nth_error s i = Some a -> at_ m i j = Some x -> at_ w i j = Some (a * x).
Proof.
  intros s m w i j a x H Hs Hm. unfold scaled in H.
  destruct (List.length s =? List.length m)%nat; [|discriminate]. injection H as <-.
  unfold at_ in *. destruct (nth_error m i) as [r|] eqn:Er; [|discriminate].
  rewrite nth_error_map, (nth_combine _ _ _ _ _ Hs Er). cbn.
  now rewrite nth_error_map, Hm.
Qed.

(** * Opening *)
Lemma has_in : forall d x, has d x = true <-> In x (d_names d).
Proof.
  intros d x. unfold has. rewrite existsb_exists. split.
  - intros (y & Hy & E). apply String.eqb_eq in E. now subst.
  - intros H. exists x. split; [exact H|]. apply String.eqb_refl.
Qed.

Definition needed (k : kind) : list string :=
  map (fun b => var_of b k) ["lat"; "lon"; "time"; "i2q2_meas_ku"; "scale_factor_ku"].

Lemma tagged_names : forall b p, In (b, p) tagged ->
  forall x, In x (needed (kind_tag b)) -> In x (map v_name (p_vars p)).
Proof.
  assert (A : forallb (fun q => forallb (fun x => existsb (String.eqb x) (map v_name (p_vars (snd q))))
              (needed (kind_tag (fst q)))) tagged = true) by (vm_compute; reflexivity).
  intros b p H x Hx. rewrite forallb_forall in A. specialize (A _ H). cbn [fst snd] in A.
  rewrite forallb_forall in A. specialize (A _ Hx).
  apply existsb_exists in A as (y & Hy & E). apply String.eqb_eq in E. now subst.
Qed.

Lemma tagged_kind : forall b p, In (b, p) tagged -> forall d,
  d_names d = map v_name (p_vars p) -> kind_of d = Ok (kind_tag b).
Proof.
  assert (A : forallb (fun q => Bool.eqb (existsb (String.eqb "time_l1bs_echo_sar_ku")
              (map v_name (p_vars (snd q)))) (fst q)) tagged = true) by (vm_compute; reflexivity).
  intros b p H d Hd. unfold kind_of.
  rewrite forallb_forall in A. specialize (A _ H). cbn [fst snd] in A.
  apply Bool.eqb_prop in A. unfold has at 1. rewrite Hd, A.
  destruct b; [reflexivity|].
  assert (T : has d "time_l1b_echo_sar_ku" = true).
  { apply has_in. rewrite Hd. apply (tagged_names _ _ H). vm_compute. tauto. }
  now rewrite T.
Qed.

Lemma nonempty : forall {A} (l : list A) n, List.length l = n -> (0 < n)%nat -> l <> [].
Proof. intros A [|x l] n H Hn; cbn in H; [lia|discriminate]. Qed.

Lemma inspect_reads : forall b p n m d, In (b, p) tagged -> product_file p n m d ->
  (0 < n)%nat -> (0 < m)%nat ->
  exists w r, scaled (d_vec d (var_of "scale_factor_ku" (kind_tag b)))
                     (d_mat d (var_of "i2q2_meas_ku" (kind_tag b))) = Ok w /\
    extent (List.concat w) = Ok r /\ rectangle n m w /\
    inspect d = Ok {| i_kind := kind_tag b;
                      i_lat := d_vec d (var_of "lat" (kind_tag b));
                      i_lon := d_vec d (var_of "lon" (kind_tag b));
                      i_time := d_vec d (var_of "time" (kind_tag b));
                      i_waves := w; i_range := r |}.
Proof.
  intros b p n m d Hp (Hd & Hv & Hm & Hr) Hn Hk.
  assert (N : forall x, In x (needed (kind_tag b)) -> has d x = true).
  { intros x Hx. apply has_in. rewrite Hd. now apply (tagged_names _ _ Hp). }
  assert (V : forall x, In x (needed (kind_tag b)) -> read_vec d x = Ok (d_vec d x)).
  { intros x Hx. unfold read_vec. now rewrite (N x Hx). }
  assert (M : forall x, In x (needed (kind_tag b)) -> read_mat d x = Ok (d_mat d x)).
  { intros x Hx. unfold read_mat. now rewrite (N x Hx). }
  assert (X : forall x, exists r, extent (d_vec d x) = Ok r).
  { intros x. apply extent_total. eapply nonempty; [apply Hv|exact Hn]. }
  assert (S : exists w, scaled (d_vec d (var_of "scale_factor_ku" (kind_tag b)))
                     (d_mat d (var_of "i2q2_meas_ku" (kind_tag b))) = Ok w).
  { unfold scaled. rewrite Hv, Hm, Nat.eqb_refl. eexists. reflexivity. }
  destruct S as (w & S).
  assert (W : rectangle n m w).
  { eapply scaled_rectangle; [exact S|]. split; [apply Hm|]. apply Hr. }
  destruct (extent_total (List.concat w)) as (r & Er).
  { eapply concat_nonempty; eassumption. }
  exists w, r. split; [exact S|]. split; [exact Er|]. split; [exact W|].
  unfold inspect. rewrite (tagged_kind _ _ Hp _ Hd). cbn [bind].
  rewrite !V, M by (unfold needed; cbn [map In]; tauto). cbn [bind].
  destruct (X (var_of "lat" (kind_tag b))) as (? & ->). cbn [bind].
  destruct (X (var_of "lon" (kind_tag b))) as (? & ->). cbn [bind].
  destruct (X (var_of "time" (kind_tag b))) as (? & ->). cbn [bind].
  rewrite S. cbn [bind]. rewrite Er. reflexivity.
Qed.

Lemma inspect_empty : forall b p m d, In (b, p) tagged -> product_file p 0 m d ->
  inspect d = Err EEmptyRange.
Proof.
  intros b p m d Hp (Hd & Hv & _).
  assert (N : forall x, In x (needed (kind_tag b)) -> has d x = true).
  { intros x Hx. apply has_in. rewrite Hd. now apply (tagged_names _ _ Hp). }
  unfold inspect. rewrite (tagged_kind _ _ Hp _ Hd). cbn [bind].
  unfold read_vec. rewrite !N by (unfold needed; cbn [map In]; tauto). cbn [bind].
  destruct (d_vec d (var_of "lat" (kind_tag b))) eqn:E; [reflexivity|].
  pose proof (Hv (var_of "lat" (kind_tag b))) as H. rewrite E in H. discriminate.
Qed.

Lemma inspect_neither : forall d,
  (forall k, ~ In (var_of "time" k) (d_names d)) -> inspect d = Err ENeither.
Proof.
  intros d H. unfold inspect, kind_of.
  destruct (has d "time_l1bs_echo_sar_ku") eqn:A.
  { elim (H L1BS). apply has_in. exact A. }
  destruct (has d "time_l1b_echo_sar_ku") eqn:B.
  { elim (H L1B). apply has_in. exact B. }
  reflexivity.
Qed.

Lemma bind_ok : forall {A B} (x : res ierr A) (f : A -> res ierr B) y,
  bind x f = Ok y -> exists a, x = Ok a /\ f a = Ok y.
Proof. intros A B [a|e] f y H; [|discriminate]. now exists a. Qed.

(** What an opened inspector holds. *)
Lemma inspect_sound : forall d i, inspect d = Ok i ->
  (forall x, In x (needed (i_kind i)) -> In x (d_names d)) /\
  scaled (d_vec d (var_of "scale_factor_ku" (i_kind i)))
         (d_mat d (var_of "i2q2_meas_ku" (i_kind i))) = Ok (i_waves i) /\
  bounds (List.concat (i_waves i)) (i_range i).
Proof.
  intros d i H. unfold inspect in H.
  apply bind_ok in H as (k & Hk & H).
  apply bind_ok in H as (lat & Hlat & H).
  apply bind_ok in H as (lon & Hlon & H).
  apply bind_ok in H as (? & Hx & H); clear Hx.
  apply bind_ok in H as (? & Hx & H); clear Hx.
  apply bind_ok in H as (time & Ht & H).
  apply bind_ok in H as (? & Hx & H); clear Hx.
  apply bind_ok in H as (counts & Hc & H).
  apply bind_ok in H as (scaling & Hs & H).
  apply bind_ok in H as (waves & Hw & H).
  apply bind_ok in H as (r & Hr & H).
  injection H as <-. cbn [i_kind i_waves i_range].
  assert (V : forall y l, read_vec d y = Ok l -> In y (d_names d) /\ d_vec d y = l).
  { intros y l. unfold read_vec. destruct (has d y) eqn:E; [|discriminate].
    intros X. injection X as <-. split; [now apply has_in|reflexivity]. }
  assert (M : forall y l, read_mat d y = Ok l -> In y (d_names d) /\ d_mat d y = l).
  { intros y l. unfold read_mat. destruct (has d y) eqn:E; [|discriminate].
    intros X. injection X as <-. split; [now apply has_in|reflexivity]. }
  destruct (V _ _ Hlat) as (A1 & _). destruct (V _ _ Hlon) as (A2 & _).
  destruct (V _ _ Ht) as (A3 & _). destruct (M _ _ Hc) as (A4 & E4).
  destruct (V _ _ Hs) as (A5 & E5).
  split; [|split].
  - intros v Hx. unfold needed in Hx. cbn [map In] in Hx.
    repeat (destruct Hx as [<-|Hx]; [assumption|]). contradiction.
  - now rewrite E4, E5.
  - now apply extent_bounds.
Qed.

(** * Waveforms of a product *)
Lemma map_some_inv : forall {A B} (f : A -> B) l i y,
  nth_error (map f l) i = Some y -> exists x, nth_error l i = Some x /\ y = f x.
Proof.
  intros A B f l i y. rewrite nth_error_map. destruct (nth_error l i); [|discriminate].
  intros H. injection H as <-. now eexists.
Qed.

Lemma list_witness : forall {A B} (P : A -> B -> Prop) (l : list A),
  (forall x, In x l -> exists y, P x y) -> exists k, Forall2 P l k.
Proof.
  intros A B P. induction l as [|x l IH]; intros H.
  - exists []. constructor.
  - destruct (H x) as (y & Hy); [now left|].
    destruct IH as (k & Hk); [intros z Hz; apply H; now right|].
    exists (y :: k). now constructor.
Qed.

Lemma forall2_map : forall {A B C} (P : A -> B -> Prop) (f : A -> C) (g : B -> C) l k,
  (forall x y, P x y -> f x = g y) -> Forall2 P l k -> map f l = map g k.
Proof. intros A B C P f g l k H F. induction F; cbn; [reflexivity|]. f_equal; auto. Qed.

Lemma forall2_nth : forall {A B} (P : A -> B -> Prop) l k, Forall2 P l k ->
  forall i x, nth_error l i = Some x -> exists y, nth_error k i = Some y /\ P x y.
Proof.
  intros A B P l k F. induction F as [|x y l k Hxy F IH]; intros [|i] z Hz; try discriminate; cbn in *.
  - injection Hz as <-. now exists y.
  - now apply IH.
Qed.

Lemma nth_seq : forall m j, (j < m)%nat -> nth_error (seq 0 m) j = Some j.
Proof.
  intros m j H. rewrite (nth_error_nth' _ 0%nat) by (rewrite seq_length; exact H).
  now rewrite seq_nth.
Qed.

Lemma product_waveform : forall b p es n m d i,
  In (b, p) tagged -> product_file p n m d -> holds_records p es d ->
  (forall e, In e es -> exists w sigma scale, surf_env e m w sigma scale) ->
  inspect d = Ok i ->
  forall t e w sigma scale j, nth_error es t = Some e -> surf_env e m w sigma scale ->
    (j < m)%nat ->
  exists f, shown_factor p sigma scale f /\ at_ (i_waves i) t j = Some (f * w j).
Proof.
  intros b p es n m d i Hp Hf Hh Hes Hi t e w sigma scale j He Hse Hj.
  destruct (inspect_sound _ _ Hi) as (_ & Hs & _).
  assert (K : i_kind i = kind_tag b).
  { destruct Hf as (Hd & _). pose proof (tagged_kind _ _ Hp _ Hd) as X.
    unfold inspect in Hi. rewrite X in Hi. cbn [bind] in Hi.
    repeat (apply bind_ok in Hi as (? & _ & Hi)). now injection Hi as <-. }
  rewrite K in Hs.
  (* the sigma0 of every record *)
  destruct (list_witness (fun e s => e_surf e "sigma0_scaling_factor" = VNum s) es) as (ss & Fs).
  { intros e' He'. destruct (Hes _ He') as (? & s & ? & _ & H & _). now exists s. }
  assert (S0 : forall name, In (name, SSurf "sigma0_scaling_factor") (p_writes p) -> d_vec d name = ss).
  { intros name H. apply (proj1 (Hh _ _ H)). eapply forall2_map; [|exact Fs].
    intros x y E. cbn [eval]. now rewrite E. }
  destruct (forall2_nth _ _ _ Fs _ _ He) as (sg & Hsg & Esg).
  destruct Hse as (E1 & E2 & E3). rewrite E2 in Esg. injection Esg as <-.
  (* the counts of every record *)
  assert (C : forall s (g : R -> R -> R),
     (forall e w sigma scale, surf_env e m w sigma scale -> eval e s = Some (VVec m (fun j => g scale (w j)))) ->
     forall name, In (name, s) (p_writes p) -> at_ (d_mat d name) t j = Some (g scale (w j))).
  { intros s g Hg name Hin.
    destruct (list_witness (fun e f => eval e s = Some (VVec m f)) es) as (fs & Ff).
    { intros e' He'. destruct (Hes _ He') as (w' & s' & c' & H). eexists. now apply (Hg _ _ _ _ H). }
    assert (Ed : d_mat d name = map (fun f => map f (seq 0 m)) fs).
    { apply (proj2 (Hh _ _ Hin) m fs). eapply forall2_map; [|exact Ff]. intros x y E. exact E. }
    destruct (forall2_nth _ _ _ Ff _ _ He) as (f & Hfn & Ef).
    unfold at_. rewrite Ed, nth_error_map, Hfn. cbn [option_map].
    rewrite nth_error_map, (nth_seq _ _ Hj). cbn [option_map].
    rewrite (Hg e w sigma scale) in Ef by (repeat split; assumption).
    injection Ef as <-. reflexivity. }
  cbn [In tagged] in Hp.
  destruct Hp as [Hp|[Hp|[Hp|[]]]]; injection Hp as <- <-; cbn [kind_tag] in *.
  - exists (sigma / scale). split; [left; now split|].
    assert (X : at_ (d_mat d (var_of "i2q2_meas_ku" L1B)) t j = Some (w j / scale)).
    { apply (C (SDiv (SSurf "waveform_multilooked") (SLocal "scale_factor")) (fun c x => x / c)).
      - intros e' w' s' c' (H1 & H2 & H3). cbn [eval]. rewrite H1, H3. reflexivity.
      - vm_compute; tauto. }
    rewrite (S0 (var_of "scale_factor_ku" L1B)) in Hs by (vm_compute; tauto).
    rewrite (scaled_at _ _ _ _ _ _ _ Hs Hsg X). f_equal. unfold Rdiv. ring.
  - exists sigma. split; [right; left; now split|].
    assert (X : at_ (d_mat d (var_of "i2q2_meas_ku" L1B)) t j = Some (w j)).
    { apply (C (SSurf "waveform_multilooked") (fun _ x => x)).
      - intros e' w' s' c' (H1 & H2 & H3). cbn [eval]. rewrite H1. reflexivity.
      - vm_compute; tauto. }
    rewrite (S0 (var_of "scale_factor_ku" L1B)) in Hs by (vm_compute; tauto).
    now rewrite (scaled_at _ _ _ _ _ _ _ Hs Hsg X).
  - exists (sigma * scale). split; [right; right; now split|].
    assert (X : at_ (d_mat d (var_of "i2q2_meas_ku" L1BS)) t j = Some (w j * scale)).
    { apply (C (SMul (SSurf "waveform_multilooked") (SLocal "scale_factor")) (fun c x => x * c)).
      - intros e' w' s' c' (H1 & H2 & H3). cbn [eval]. rewrite H1, H3. reflexivity.
      - vm_compute; tauto. }
    rewrite (S0 (var_of "scale_factor_ku" L1BS)) in Hs by (vm_compute; tauto).
    rewrite (scaled_at _ _ _ _ _ _ _ Hs Hsg X). f_equal. ring.
Qed.

(** * Limits *)
Lemma given_some : forall v d, v <> 0 -> given (Some v) d = v.
Proof. intros v d H. unfold given. destruct (Req_EM_T v 0); [contradiction|reflexivity]. Qed.
Lemma given_zero : forall d, given (Some 0) d = d.
Proof. intros d. unfold given. destruct (Req_EM_T 0 0) as [|H]; [reflexivity|now elim H]. Qed.

Lemma hist_limits_distinct : forall r a b, fst (hist_limits r a b) <> snd (hist_limits r a b).
Proof.
  intros r a b. unfold hist_limits. cbn [fst snd].
  destruct (Req_EM_T (given a (fst r)) (given b (snd r))); [lra|assumption].
Qed.

(** * Differences *)
Lemma minus_at : forall a b i j x y, at_ a i j = Some x -> at_ b i j = Some y ->
  at_ (map minus_rows (combine a b)) i j = Some (x - y).
Proof.
  intros a b i j x y Ha Hb. unfold at_ in *.
  destruct (nth_error a i) as [r|] eqn:Ea; [|discriminate].
  destruct (nth_error b i) as [s|] eqn:Eb; [|discriminate].
  rewrite nth_error_map, (nth_combine _ _ _ _ _ Ea Eb). cbn [option_map]. unfold minus_rows.
  cbn [fst snd]. now rewrite nth_error_map, (nth_combine _ _ _ _ _ Ha Hb).
Qed.

Lemma rectangle_shape : forall w n m, rectangle n m w -> (0 < n)%nat -> shape_of w = (n, m).
Proof.
  intros [|r w] n m (H1 & H2) Hn; cbn in H1; [lia|]. unfold shape_of.
  rewrite <- H1. f_equal. apply H2. now left.
Qed.

Lemma minus_rectangle : forall a b n m, rectangle n m a -> rectangle n m b ->
  rectangle n m (map minus_rows (combine a b)).
Proof.
  intros a b n m (A1 & A2) (B1 & B2). split.
  - rewrite map_length, combine_length. lia.
  - intros r Hr. apply in_map_iff in Hr as ([x y] & <- & Hi).
    pose proof (A2 _ (in_combine_l _ _ _ _ Hi)). pose proof (B2 _ (in_combine_r _ _ _ _ Hi)).
    unfold minus_rows. cbn [fst snd]. rewrite map_length, combine_length. lia.
Qed.

Lemma at_in_concat : forall w i j x, at_ w i j = Some x -> In x (List.concat w).
Proof.
  intros w i j x H. unfold at_ in H. destruct (nth_error w i) as [r|] eqn:E; [|discriminate].
  apply in_concat. exists r. split; eapply nth_error_In; eassumption.
Qed.
Lemma concat_at : forall w x, In x (List.concat w) -> exists i j, at_ w i j = Some x.
Proof.
  intros w x H. apply in_concat in H as (r & Hr & Hx).
  apply In_nth_error in Hr as (i & Hi). apply In_nth_error in Hx as (j & Hj).
  exists i, j. unfold at_. now rewrite Hi.
Qed.
Lemma rectangle_at : forall w n m i j, rectangle n m w ->
  (exists x, at_ w i j = Some x) <-> (i < n /\ j < m)%nat.
Proof.
  intros w n m i j (H1 & H2). unfold at_. split.
  - intros (x & Hx). destruct (nth_error w i) as [r|] eqn:E; [|discriminate].
    pose proof (nth_error_In _ _ E) as Hr. apply H2 in Hr.
    split; [|rewrite <- Hr]; [rewrite <- H1|]; apply nth_error_Some; congruence.
  - intros (Hi & Hj). destruct (nth_error w i) as [r|] eqn:E.
    + pose proof (H2 _ (nth_error_In _ _ E)) as Hr.
      destruct (nth_error r j) as [x|] eqn:Ej; [now exists x|].
      apply nth_error_None in Ej. lia.
    + apply nth_error_None in E. lia.
Qed.

Lemma compare_ok : forall i1 i2 n m, rectangle n m (i_waves i1) -> rectangle n m (i_waves i2) ->
  (0 < n)%nat -> (0 < m)%nat ->
  exists c, compare_products i1 i2 = Ok c /\ rectangle n m (c_delta c) /\
    bounds (List.concat (c_delta c)) (c_range c) /\
    c_delta c = map minus_rows (combine (i_waves i1) (i_waves i2)).
Proof.
  intros i1 i2 n m H1 H2 Hn Hm. unfold compare_products.
  rewrite (rectangle_shape _ _ _ H1 Hn), (rectangle_shape _ _ _ H2 Hn). cbn [fst snd].
  rewrite !Nat.eqb_refl. cbn [andb].
  pose proof (minus_rectangle _ _ _ _ H1 H2) as W.
  destruct (extent_total (List.concat (map minus_rows (combine (i_waves i1) (i_waves i2))))) as (r & E).
  { eapply concat_nonempty; eassumption. }
  rewrite E. cbn [bind]. eexists. split; [reflexivity|]. cbn [c_delta c_range].
  split; [exact W|]. split; [now apply extent_bounds|reflexivity].
Qed.

Lemma compare_err : forall i1 i2 n1 m1 n2 m2,
  rectangle n1 m1 (i_waves i1) -> rectangle n2 m2 (i_waves i2) ->
  (0 < n1)%nat -> (0 < n2)%nat -> (n1, m1) <> (n2, m2) ->
  compare_products i1 i2 = Err EShapes.
Proof.
  intros i1 i2 n1 m1 n2 m2 H1 H2 Hn1 Hn2 Hne. unfold compare_products.
  rewrite (rectangle_shape _ _ _ H1 Hn1), (rectangle_shape _ _ _ H2 Hn2). cbn [fst snd].
  destruct (n1 =? n2)%nat eqn:A; [|reflexivity].
  destruct (m1 =? m2)%nat eqn:B; [|reflexivity].
  apply Nat.eqb_eq in A, B. subst. now elim Hne.
Qed.

Lemma delta_at : forall i1 i2 n m, rectangle n m (i_waves i1) -> rectangle n m (i_waves i2) ->
  forall i j, (i < n)%nat -> (j < m)%nat -> exists x y,
    at_ (i_waves i1) i j = Some x /\ at_ (i_waves i2) i j = Some y /\
    at_ (map minus_rows (combine (i_waves i1) (i_waves i2))) i j = Some (x - y).
Proof.
  intros i1 i2 n m H1 H2 i j Hi Hj.
  destruct (proj2 (rectangle_at _ _ _ i j H1) (conj Hi Hj)) as (x & Hx).
  destruct (proj2 (rectangle_at _ _ _ i j H2) (conj Hi Hj)) as (y & Hy).
  exists x, y. repeat split; try assumption. now apply minus_at.
Qed.

Lemma compare_swap : forall i1 i2 n m c c',
  rectangle n m (i_waves i1) -> rectangle n m (i_waves i2) -> (0 < n)%nat -> (0 < m)%nat ->
  compare_products i1 i2 = Ok c -> compare_products i2 i1 = Ok c' ->
  (forall i j x, at_ (c_delta c) i j = Some x <-> at_ (c_delta c') i j = Some (- x)) /\
  c_range c' = (- snd (c_range c), - fst (c_range c)).
Proof.
  intros i1 i2 n m c c' H1 H2 Hn Hm E E'.
  destruct (compare_ok _ _ _ _ H1 H2 Hn Hm) as (d & Ed & W & B & D).
  destruct (compare_ok _ _ _ _ H2 H1 Hn Hm) as (d' & Ed' & W' & B' & D').
  rewrite Ed in E. injection E as <-. rewrite Ed' in E'. injection E' as <-.
  assert (S : forall i j x, at_ (c_delta d) i j = Some x <-> at_ (c_delta d') i j = Some (- x)).
  { intros i j x. rewrite D, D'. split; intros H.
    - destruct (proj1 (rectangle_at _ _ _ i j W)) as (Hi & Hj); [exists x; now rewrite D|].
      destruct (delta_at _ _ _ _ H1 H2 _ _ Hi Hj) as (a & b & Ha & Hb & Hab).
      rewrite H in Hab. injection Hab as ->. rewrite (minus_at _ _ _ _ _ _ Hb Ha). f_equal. lra.
    - destruct (proj1 (rectangle_at _ _ _ i j W')) as (Hi & Hj); [exists (- x); now rewrite D'|].
      destruct (delta_at _ _ _ _ H2 H1 _ _ Hi Hj) as (a & b & Ha & Hb & Hab).
      rewrite H in Hab. injection Hab as Hx. rewrite (minus_at _ _ _ _ _ _ Hb Ha). f_equal. lra. }
  split; [exact S|].
  apply (bounds_unique (List.concat (c_delta d'))); [exact B'|].
  destruct B as (B1 & B2 & B3).
  repeat split; cbn [fst snd].
  - apply concat_at in B2 as (i & j & H). apply S in H. eapply at_in_concat; eassumption.
  - apply concat_at in B1 as (i & j & H). apply S in H. eapply at_in_concat; eassumption.
  - apply concat_at in H as (i & j & H). assert (X : at_ (c_delta d) i j = Some (- x)).
    { apply S. rewrite Ropp_involutive. exact H. }
    apply at_in_concat in X. apply B3 in X. lra.
  - apply concat_at in H as (i & j & H). assert (X : at_ (c_delta d) i j = Some (- x)).
    { apply S. rewrite Ropp_involutive. exact H. }
    apply at_in_concat in X. apply B3 in X. lra.
Qed.

Lemma compare_same : forall i1 i2 n m c,
  rectangle n m (i_waves i1) -> i_waves i2 = i_waves i1 -> (0 < n)%nat -> (0 < m)%nat ->
  compare_products i1 i2 = Ok c ->
  (forall x, In x (List.concat (c_delta c)) -> x = 0) /\ c_range c = (0, 0).
Proof.
  intros i1 i2 n m c H1 Hs Hn Hm E.
  assert (H2 : rectangle n m (i_waves i2)) by (rewrite Hs; exact H1).
  destruct (compare_ok _ _ _ _ H1 H2 Hn Hm) as (d & Ed & W & B & D).
  rewrite Ed in E. injection E as <-.
  assert (Z : forall x, In x (List.concat (c_delta d)) -> x = 0).
  { intros x Hx. apply concat_at in Hx as (i & j & H).
    destruct (proj1 (rectangle_at _ _ _ i j W)) as (Hi & Hj); [now exists x|].
    destruct (delta_at _ _ _ _ H1 H2 _ _ Hi Hj) as (a & b & Ha & Hb & Hab).
    rewrite <- D, H in Hab. injection Hab as ->. rewrite Hs, Ha in Hb. injection Hb as ->. lra. }
  split; [exact Z|]. destruct B as (B1 & B2 & _). apply Z in B1, B2.
  destruct (c_range d) as [a b]. cbn [fst snd] in *. now subst.
Qed.
