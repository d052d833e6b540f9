(** C129: line plots. *)
From Coq Require Import Ascii String List ZArith Reals Bool Arith Permutation Lia Lra.
From Verif Require Import Common InspModel CurveModel CurveSpec CurveProofs.
From Verif Require FsModel FsProofs.
Import ListNotations.
Open Scope string_scope.

(** A curve has one point for each value: its ordinate is the value, its abscissa
    the value of the other variable at the same place, or the place. *)
Theorem C129_curve : forall d x y c, plot_line d x y = Ok c ->
  List.length c = List.length (d_vec d y) /\
  forall i px py, nth_error c i = Some (px, py) ->
    nth_error (d_vec d y) i = Some py /\
    ((x = "index" /\ px = INR i) \/ (x <> "index" /\ nth_error (d_vec d x) i = Some px)).
Proof.
  intros d x y c H. unfold plot_line in H. destruct (line_data d y) as [ys|] eqn:Y; [|discriminate]. cbn [bind] in H.
  apply line_data_over in Y. destruct Y as (n & _ & ->).
  assert (C : exists xs, c = combine xs (d_vec d y) /\ List.length xs = List.length (d_vec d y) /\
    ((x = "index" /\ xs = arange (List.length (d_vec d y))) \/ (x <> "index" /\ xs = d_vec d x))).
  { destruct (String.eqb_spec x "index") as [->|NE]; cbn [bind] in H.
    - rewrite arange_length, Nat.eqb_refl in H. injection H as <-. eexists. split; [reflexivity|]. split; [apply arange_length|]. auto.
    - destruct (line_data d x) as [xs|] eqn:X; [|discriminate]. cbn [bind] in H. apply line_data_over in X. destruct X as (m & _ & ->).
      destruct (Nat.eqb_spec (List.length (d_vec d x)) (List.length (d_vec d y))) as [E|]; [|discriminate]. injection H as <-.
      eexists. split; [reflexivity|]. auto. }
  destruct C as (xs & -> & L & X). split; [rewrite combine_length; lia|].
  intros i px py N. assert (I : (i < List.length (d_vec d y))%nat).
  { apply nth_error_Some_lt in N. rewrite combine_length in N. lia. }
  destruct (nth_error (d_vec d y) i) as [v|] eqn:Ey; [|apply nth_error_None in Ey; lia].
  destruct (nth_error xs i) as [u|] eqn:Ex; [|apply nth_error_None in Ex; lia].
  rewrite (combine_nth xs (d_vec d y) i u v Ex Ey) in N. injection N as <- <-. split; [reflexivity|].
  destruct X as [(-> & ->)|(NE & ->)]; [left|right; auto]. split; [reflexivity|]. rewrite arange_nth in Ex by exact I. congruence.
Qed.
Print Assumptions C129_curve.

(** It is drawn exactly when the variables are there and over dimensions of one
    size. *)
Theorem C129_drawn : forall d x y, sized d ->
  ((exists c, plot_line d x y = Ok c) <->
   exists n, over d y n /\ (x = "index" \/ exists m, over d x m /\ d_size d m = d_size d n)).
Proof.
  intros d x y SZ. split.
  - intros (c & H). unfold plot_line in H. destruct (line_data d y) as [ys|] eqn:Y; [|discriminate]. cbn [bind] in H.
    apply line_data_over in Y. destruct Y as (n & Y & ->). exists n. split; [exact Y|].
    destruct (String.eqb_spec x "index") as [->|NE]; [auto|]. right.
    destruct (line_data d x) as [xs|] eqn:X; [|discriminate]. cbn [bind] in H. apply line_data_over in X. destruct X as (m & X & ->).
    exists m. split; [exact X|]. rewrite (SZ x m X), (SZ y n Y) in H. destruct (Nat.eqb_spec (d_size d m) (d_size d n)); [assumption|discriminate].
  - intros (n & Y & X). unfold plot_line. rewrite (line_data_ok d y n Y). cbn [bind]. destruct (String.eqb_spec x "index") as [->|NE]; cbn [bind].
    + rewrite arange_length, Nat.eqb_refl. eauto.
    + destruct X as [X|(m & X & E)]; [congruence|]. rewrite (line_data_ok d x m X). cbn [bind]. rewrite (SZ x m X), (SZ y n Y), E, Nat.eqb_refl. eauto.
Qed.
Print Assumptions C129_drawn.

Section Offered.
Variable sort : list string -> list string.
Hypothesis HS : forall l, Permutation l (sort l).
Variable d : dataset.
Hypothesis N : NoDup (d_names d).

(** Offered are the variables over a dimension that another variable is over as
    well, and these dimensions; there is something to start with when there is
    one. *)
Theorem C129_offered :
  (forall v, In v (valid_names sort d) <-> exists n, over d v n /\ shared d n) /\
  (forall n, In n (valid_dims sort d) <-> shared d n) /\
  (forall x y, (exists p, start_line sort d x y = Ok p) <-> exists n, shared d n) /\
  (forall x y, (exists p, start_dim sort d x y = Ok p) <-> exists n, shared d n).
Proof.
  split; [apply (valid_in sort HS d N)|]. split; [apply (dims_in sort HS d N)|].
  assert (PK : forall v l, (exists x, pick v l = Ok x) <-> exists x, In x l).
  { intros v [|o l]; cbn; split; [intros (x & ?); discriminate|intros (x & []) |eauto|eauto]. }
  assert (GR : forall n, shared d n -> exists v, In v (sort (group d [n]))).
  { intros n (_ & v & _ & _ & V & _). exists v. apply (sort_in sort HS). apply group_in. exact V. }
  split; intros x y; split.
  - intros (p & H). unfold start_line in H. destruct (pick y (valid_names sort d)) as [yv|] eqn:E; [|discriminate].
    apply pick_in in E. apply (valid_in sort HS d N) in E. destruct E as (n & _ & Sh). eauto.
  - intros (n & Sh). pose proof Sh as (_ & v & _ & _ & V & _). unfold start_line.
    destruct (proj2 (PK y (valid_names sort d))) as (yv & ->); [exists v; apply (valid_in sort HS d N); eauto|]. cbn [bind].
    destruct (proj2 (PK x ("index" :: valid_names sort d))) as (xv & ->); [exists "index"; cbn; auto|]. cbn [bind]. eauto.
  - intros (p & H). unfold start_dim in H. destruct (pick None (valid_dims sort d)) as [n|] eqn:E; [|discriminate].
    apply pick_in in E. apply (dims_in sort HS d N) in E. eauto.
  - intros (n0 & Sh0). unfold start_dim. destruct (proj2 (PK None (valid_dims sort d))) as (n & E); [exists n0; apply (dims_in sort HS d N); exact Sh0|].
    rewrite E. cbn [bind]. apply pick_in in E. apply (dims_in sort HS d N) in E. destruct (GR n E) as (v & V).
    destruct (proj2 (PK y (sort (group d [n])))) as (yv & ->); [eauto|]. cbn [bind].
    destruct (proj2 (PK x ("index" :: sort (group d [n])))) as (xv & ->); [exists "index"; cbn; auto|]. cbn [bind]. eauto.
Qed.

(** Whatever is selected among what is offered, a curve is drawn, when the first
    abscissa is the index or there is a selector for the dimension. *)
Theorem C129_session_partial : sized d -> forall p,
  session sort d p \/ dim_session sort d p -> exists c, plot_line d (p_x p) (p_y p) = Ok c.
Proof.
  intros SZ p [H|H].
  - apply (fits_plot sort d SZ). apply (session_fits sort HS d N). exact H.
  - apply (fits_dim_plot d SZ). apply (dim_session_fits sort HS d). exact H.
Qed.

(** Every pair of variables over one dimension can be selected. *)
Theorem C129_complete : forall x y n, over d x n -> over d y n -> shared d n -> x <> "index" ->
  (exists p, session sort d p /\ p_x p = x /\ p_y p = y) /\ (exists p, dim_session sort d p /\ p_x p = x /\ p_y p = y).
Proof.
  intros x y n X Y Sh NI. pose proof C129_offered as (VN & VD & SL & SD).
  assert (XV : In x (valid_names sort d)) by (apply VN; eauto).
  assert (GX : forall v, over d v n -> In v (sort (group d [n]))) by (intros v V; apply (sort_in sort HS); apply group_in; exact V).
  split.
  - destruct (proj2 (SL None None) (ex_intro _ n Sh)) as (p0 & P0).
    assert (XS : p_xs p0 = "index" :: valid_names sort d /\ p_x p0 = "index").
    { unfold start_line in P0. destruct (pick None (valid_names sort d)) as [yv|]; [|discriminate]. cbn in P0. injection P0 as <-. auto. }
    destruct XS as (XS & X0).
    assert (CH : exists p1, choose_x sort d p0 x = Ok p1 /\ p_x p1 = x /\ p_ys p1 = sort (group d [n])).
    { unfold choose_x. rewrite X0. destruct (String.eqb_spec x "index"); [congruence|]. rewrite (proj2 X).
      specialize (GX x X). destruct (sort (group d [n])) as [|o l]; [contradiction|]. cbn. eauto. }
    destruct CH as (p1 & C1 & X1 & Y1). exists (choose_y p1 y). cbn. split; [|auto]. apply S_y; [|rewrite Y1; auto].
    apply (S_x sort d p0 x p1); [apply (S_start sort d None p0 P0)|rewrite XS; right; exact XV|exact C1].
  - destruct (proj2 (SD None None) (ex_intro _ n Sh)) as (p0 & P0).
    assert (CH : exists p1, choose_dim sort d n = Ok p1 /\ p_xs p1 = "index" :: sort (group d [n]) /\ p_ys p1 = sort (group d [n])).
    { unfold choose_dim. specialize (GX x X). destruct (sort (group d [n])) as [|o l]; [contradiction|]. cbn. eauto. }
    destruct CH as (p1 & C1 & X1 & Y1). exists (choose_y (set_x p1 x) y). cbn. split; [|auto].
    apply D_y; [|cbn; rewrite Y1; auto]. apply D_x; [|rewrite X1; right; auto].
    apply (D_dim sort d p0 n p1); [apply (D_start sort d None None p0 P0)|apply VD; exact Sh|exact C1].
Qed.
End Offered.
Print Assumptions C129_offered.
Print Assumptions C129_session_partial.
Print Assumptions C129_complete.

(** Started with the name of an abscissa the first ordinate may be over another
    dimension, and no curve is drawn. *)
Definition e_d : dataset :=
  {| d_names := ["a"; "b"; "x"; "y"];
     d_dims v := if (v =? "a")%string || (v =? "b")%string then ["m"] else ["n"];
     d_size n := if (n =? "m")%string then 2%nat else 3%nat;
     d_vec v := if (v =? "a")%string || (v =? "b")%string then [0; 1]%R else [0; 1; 2]%R;
     d_mat _ := [] |}.
Lemma e_sized : sized e_d.
Proof.
  intros v n (_ & D). cbn in D |- *. destruct ((v =? "a")%string || (v =? "b")%string); injection D as <-; reflexivity.
Qed.
Lemma e_nodup : NoDup (d_names e_d).
Proof. repeat constructor; cbn; intuition discriminate. Qed.
Theorem C129_started_refuted : exists d x p, sized d /\ NoDup (d_names d) /\
  In x (valid_names FsModel.sort_s d) /\ start_line FsModel.sort_s d (Some x) None = Ok p /\ plot_line d (p_x p) (p_y p) = Err CLengths.
Proof.
  exists e_d, "x". eexists. split; [exact e_sized|]. split; [exact e_nodup|]. split; [vm_compute; auto|]. split; [vm_compute; reflexivity|]. reflexivity.
Qed.
Print Assumptions C129_started_refuted.

(** * Image with lines *)

Lemma py_index_in : forall n i k, py_index n i = Some k -> (k < n)%nat /\ (Z.of_nat k = i \/ Z.of_nat k = Z.of_nat n + i)%Z.
Proof.
  intros n i k H. unfold py_index in H. destruct (Z.leb_spec 0 i).
  - destruct (Z.ltb_spec i (Z.of_nat n)); [|discriminate]. injection H as <-. rewrite Z2Nat.id by lia. split; [|auto]. lia.
  - destruct (Z.leb_spec (- Z.of_nat n) i); [|discriminate]. injection H as <-. rewrite Z2Nat.id by lia. split; [|auto]. lia.
Qed.
Lemma all_ok_map : forall A B (f : A -> res cerr B) l v, all_ok (map f l) = Ok v -> Forall2 (fun a b => f a = Ok b) l v.
Proof.
  induction l as [|a l IH]; intros v H; cbn in H; [injection H as <-; constructor|].
  destruct (f a) as [b|e] eqn:E; [|discriminate]. destruct (all_ok (map f l)) as [w|]; [|discriminate]. cbn in H. injection H as <-. constructor; auto.
Qed.
Lemma all_ok_of : forall A B (f : A -> res cerr B) l, (forall a, In a l -> exists b, f a = Ok b) -> exists v, all_ok (map f l) = Ok v.
Proof.
  induction l as [|a l IH]; intros H; cbn; [eauto|]. destruct (H a) as (b & ->); [cbn; auto|]. destruct IH as (v & ->); [intros; apply H; cbn; auto|]. cbn. eauto.
Qed.
Lemma Forall2_nth : forall A B (R : A -> B -> Prop) l l' i a, Forall2 R l l' -> nth_error l i = Some a -> exists b, nth_error l' i = Some b /\ R a b.
Proof. intros A B R l l' i a F. revert i. induction F; intros [|i] E; cbn in *; try discriminate; [injection E as <-; eauto|auto]. Qed.
Lemma at_index_is : forall A (l : list A) i a, at_index l i = Ok a <-> exists k, py_index (List.length l) i = Some k /\ nth_error l k = Some a.
Proof.
  intros A l i a. unfold at_index. destruct (py_index (List.length l) i) as [k|]; [|split; [discriminate|intros (k & ? & _); discriminate]].
  destruct (nth_error l k) eqn:E; split; intros H; try discriminate.
  - injection H as <-. eauto.
  - destruct H as (k' & K & H'). injection K as <-. congruence.
  - destruct H as (k' & K & H'). injection K as <-. congruence.
Qed.
Lemma Forall2_len : forall A B (R : A -> B -> Prop) l l', Forall2 R l l' -> List.length l = List.length l'.
Proof. intros A B R l l' F. induction F; cbn; congruence. Qed.

(** The curves above and beside an image are drawn when the indices are within the
    image, counted from the start or, negative, from the end; they show the row
    and the column meant, and where these cross, the same value. *)
Theorem C129_cross : forall n m z xind yind, matrix n m z -> (0 < n)%nat ->
  ((exists r c, row_curve z yind = Ok r /\ column_curve z xind = Ok c) <->
   exists j k, py_index n yind = Some j /\ py_index m xind = Some k) /\
  forall j k, py_index n yind = Some j -> py_index m xind = Some k ->
    exists r c row v, row_curve z yind = Ok r /\ column_curve z xind = Ok c /\ nth_error z j = Some row /\ nth_error row k = Some v /\
      List.length r = m /\ List.length c = n /\ nth_error r k = Some (INR k, v) /\ nth_error c j = Some (v, INR j) /\
      (forall i u, nth_error row i = Some u -> nth_error r i = Some (INR i, u)) /\
      (forall i w u, nth_error z i = Some w -> nth_error w k = Some u -> nth_error c i = Some (u, INR i)).
Proof.
  intros n m z xind yind (LN & LM) NZ. rewrite Forall_forall in LM.
  assert (MAIN : forall j k, py_index n yind = Some j -> py_index m xind = Some k ->
    exists r c row v, row_curve z yind = Ok r /\ column_curve z xind = Ok c /\ nth_error z j = Some row /\ nth_error row k = Some v /\
      List.length r = m /\ List.length c = n /\ nth_error r k = Some (INR k, v) /\ nth_error c j = Some (v, INR j) /\
      (forall i u, nth_error row i = Some u -> nth_error r i = Some (INR i, u)) /\
      (forall i w u, nth_error z i = Some w -> nth_error w k = Some u -> nth_error c i = Some (u, INR i))).
  { intros j k J K. pose proof (py_index_in _ _ _ J) as (JL & _). pose proof (py_index_in _ _ _ K) as (KL & _).
    destruct (nth_error z j) as [row|] eqn:Ej; [|apply nth_error_None in Ej; lia].
    assert (RL : List.length row = m) by (apply LM; apply (nth_error_In _ _ Ej)).
    destruct (nth_error row k) as [v|] eqn:Ek; [|apply nth_error_None in Ek; lia].
    destruct (all_ok_of _ _ (fun row => at_index row xind) z) as (col & COL).
    { intros w Iw. specialize (LM w Iw). destruct (nth_error w k) as [u|] eqn:Eu; [|apply nth_error_None in Eu; lia]. exists u. apply at_index_is. exists k. rewrite LM. auto. }
    pose proof (all_ok_map _ _ _ _ _ COL) as F.
    assert (CL : List.length col = n) by (rewrite <- (Forall2_len _ _ _ _ _ F); exact LN).
    assert (CN : forall i w u, nth_error z i = Some w -> nth_error w k = Some u -> nth_error (combine col (arange (List.length col))) i = Some (u, INR i)).
    { intros i w u Ew Eu. destruct (Forall2_nth _ _ _ _ _ i w F Ew) as (b & Eb & AB). apply at_index_is in AB. destruct AB as (k' & K' & AB).
      rewrite (LM w (nth_error_In _ _ Ew)) in K'. rewrite K in K'. injection K' as <-. apply combine_nth; [congruence|]. apply arange_nth.
      apply nth_error_Some_lt in Eb. exact Eb. }
    assert (RN : forall i u, nth_error row i = Some u -> nth_error (combine (arange (List.length row)) row) i = Some (INR i, u)).
    { intros i u Eu. apply combine_nth; [|exact Eu]. apply arange_nth. apply nth_error_Some_lt in Eu. exact Eu. }
    exists (combine (arange (List.length row)) row), (combine col (arange (List.length col))), row, v.
    split. { unfold row_curve. rewrite (proj2 (at_index_is _ z yind row)) by (exists j; rewrite LN; auto). reflexivity. }
    split. { unfold column_curve. rewrite COL. reflexivity. }
    split; [reflexivity|]. split; [exact Ek|]. split; [rewrite combine_length, arange_length; lia|]. split; [rewrite combine_length, arange_length; lia|].
    split; [exact (RN k v Ek)|]. split; [exact (CN j row v Ej Ek)|]. split; assumption. }
  split; [|exact MAIN]. split.
  - intros (r & c & R & C). unfold row_curve in R. destruct (at_index z yind) as [row|] eqn:A; [|discriminate].
    apply at_index_is in A. destruct A as (j & J & _). rewrite LN in J.
    unfold column_curve in C. destruct (all_ok (map (fun row => at_index row xind) z)) as [col|] eqn:AO; [|discriminate].
    apply all_ok_map in AO. destruct z as [|w z]; [cbn in LN; lia|]. inversion AO as [|? ? ? ? A2 _]; subst.
    apply at_index_is in A2. destruct A2 as (k & K & _). rewrite (LM w) in K by (cbn; auto). eauto.
  - intros (j & k & J & K). destruct (MAIN j k J K) as (r & c & _ & _ & R & C & _). eauto.
Qed.
Print Assumptions C129_cross.

(** The line drawn in the image is at the row or column shown when the index is not
    negative, and only then. *)
Theorem C129_marker_partial : forall n i k, py_index n i = Some k -> (marker i = INR k <-> (0 <= i)%Z).
Proof.
  intros n i k H. unfold marker. rewrite INR_IZR_INZ. pose proof (py_index_in _ _ _ H) as (L & E). unfold py_index in H. split.
  - intros E'. apply eq_IZR in E'. lia.
  - intros P. apply f_equal. destruct (Z.leb_spec 0 i); [|lia]. destruct (i <? Z.of_nat n)%Z; [|discriminate]. injection H as <-. lia.
Qed.
Print Assumptions C129_marker_partial.
Theorem C129_marker_refuted : exists n i k, py_index n i = Some k /\ marker i <> INR k.
Proof. exists 3%nat, (-1)%Z, 2%nat. split; [reflexivity|]. unfold marker. cbn. lra. Qed.
Print Assumptions C129_marker_refuted.

(** A waveform is shown whole, also the one to compare with. *)
Theorem C129_waveform : forall waves m ind ref c r i, Forall (fun w => List.length w = m) waves ->
  waveform_line waves m ind ref = Ok (c, r, i) ->
  i = match ind with Some i => i | None => 0%Z end /\
  let shows j l := exists k w, py_index (List.length waves) j = Some k /\ nth_error waves k = Some w /\
                     l = combine (arange m) w /\ forall q u, nth_error w q = Some u -> nth_error l q = Some (INR q, u) in
  shows i c /\ (ref = None <-> r = None) /\ forall j l, ref = Some j -> r = Some l -> shows j l.
Proof.
  intros waves m ind ref c r i F H. rewrite Forall_forall in F. unfold waveform_line in H. set (i0 := match ind with Some i => i | None => 0%Z end) in *.
  cbv zeta in H |- *.
  assert (CV : forall j l, bind (at_index waves j) (fun row => if (List.length row =? m)%nat then Ok (combine (arange m) row) else Err CLengths) = Ok l ->
    exists k w, py_index (List.length waves) j = Some k /\ nth_error waves k = Some w /\ l = combine (arange m) w /\ forall q u, nth_error w q = Some u -> nth_error l q = Some (INR q, u)).
  { intros j l B. destruct (at_index waves j) as [w|] eqn:A; [|discriminate]. cbn [bind] in B. apply at_index_is in A. destruct A as (k & K & A).
    destruct (Nat.eqb_spec (List.length w) m) as [E|]; [|discriminate]. injection B as <-. exists k, w. repeat split; try assumption.
    intros q u Q. apply combine_nth; [|exact Q]. apply arange_nth. apply nth_error_Some_lt in Q. lia. }
  destruct (bind (at_index waves i0) _) as [c0|] eqn:B0 in H; [|discriminate]. cbn [bind] in H.
  destruct ref as [k|].
  - destruct (bind (at_index waves k) _) as [r0|] eqn:B1 in H; [|discriminate]. cbn [bind] in H. injection H as <- <- <-.
    split; [reflexivity|]. split; [exact (CV _ _ B0)|]. split; [split; discriminate|]. intros j l E1 E2. injection E1 as <-. injection E2 as <-. exact (CV _ _ B1).
  - injection H as <- <- <-. split; [reflexivity|]. split; [exact (CV _ _ B0)|]. split; [tauto|]. intros j l E1. discriminate.
Qed.
Print Assumptions C129_waveform.

(** * Names of figures *)

Lemma y_no : forall z, no_char "y"%char (zdec z).
Proof. intros z. apply zdec_no. unfold decimal_char. cbn. intuition discriminate. Qed.
(** Figures of different plots have different names when no name of a variable
    has a dash. *)
Theorem C129_names_partial :
  (forall x y x' y', no_char dash x -> no_char dash x' -> line_name x y = line_name x' y' -> x = x' /\ y = y') /\
  (forall z x y z' x' y', no_char dash z -> no_char dash z' -> im_line_name z x y = im_line_name z' x' y' -> z = z' /\ x = x' /\ y = y').
Proof.
  split.
  - intros x y x' y' A B E. unfold line_name in E. apply app_head in E.
    change ("-over-" ++ y ++ ".png") with (String dash ("over-" ++ y ++ ".png")) in E.
    change ("-over-" ++ y' ++ ".png") with (String dash ("over-" ++ y' ++ ".png")) in E.
    apply split_char in E; [|assumption|assumption]. destruct E as (-> & E). split; [reflexivity|].
    apply app_head in E. exact (app_tail _ _ _ E).
  - set (tl := fun (x y : option Z) => match x, y with
      | Some x, Some y => "-x-" ++ zdec x ++ "-y-" ++ zdec y ++ ".png"
      | Some x, None => "-x-" ++ zdec x ++ ".png"
      | None, Some y => "-y-" ++ zdec y ++ ".png"
      | None, None => ".png" end).
    assert (NM : forall z x y, im_line_name z x y = "fig-" ++ (z ++ tl x y)) by (intros z [x|] [y|]; reflexivity).
    assert (DP : no_char dash ".png") by (unfold no_char; cbn; intuition discriminate).
    assert (YP : no_char "y"%char ".png") by (unfold no_char; cbn; intuition discriminate).
    assert (HD : forall x y, (x, y) <> (None, None) -> exists r, tl x y = String dash r) by (intros [x|] [y|] H; try congruence; eexists; reflexivity).
    assert (TL : forall x y x' y', tl x y = tl x' y' -> x = x' /\ y = y').
    { assert (AS : forall a b c : string, (a ++ b) ++ c = a ++ b ++ c) by (induction a; intros; cbn; [reflexivity|f_equal; auto]).
      assert (Y1 : forall a b, zdec a ++ "-y-" ++ zdec b ++ ".png" = (zdec a ++ "-") ++ String "y"%char ("-" ++ zdec b ++ ".png")) by (intros; rewrite AS; reflexivity).
      assert (YN : forall a, no_char "y"%char (zdec a ++ "-")).
      { intros a. apply no_app. split; [apply y_no|unfold no_char; cbn; intuition discriminate]. }
      assert (YM : forall a, no_char "y"%char (zdec a ++ ".png")) by (intros a; apply no_app; split; [apply y_no|exact YP]).
      intros [x|] [y|] [x'|] [y'|] E; unfold tl in E; try discriminate; try (split; reflexivity).
      - apply app_head in E. rewrite !Y1 in E. apply split_char in E; [|apply YN|apply YN]. destruct E as (E1 & E2).
        apply app_tail in E1. apply zdec_inj in E1. apply app_head in E2. apply app_tail in E2. apply zdec_inj in E2. subst. auto.
      - apply app_head in E. rewrite Y1 in E. exfalso. symmetry in E. revert E. apply has_app. apply YM.
      - apply app_head in E. rewrite Y1 in E. exfalso. revert E. apply has_app. apply YM.
      - apply app_head in E. apply app_tail in E. apply zdec_inj in E. subst. auto.
      - apply app_head in E. apply app_tail in E. apply zdec_inj in E. subst. auto. }
    intros z x y z' x' y' A B E. rewrite !NM in E. apply app_head in E.
    assert (DEC : forall x y : option Z, (x, y) = (None, None) \/ (x, y) <> (None, None)) by (intros [x0|] [y0|]; auto; right; discriminate).
    destruct (DEC x y) as [N|N], (DEC x' y') as [N'|N'].
    + injection N as -> ->. injection N' as -> ->. apply app_tail in E. auto.
    + injection N as -> ->. destruct (HD _ _ N') as (r & H). rewrite H in E. exfalso. revert E. apply has_app. apply no_app. auto.
    + injection N' as -> ->. destruct (HD _ _ N) as (r & H). rewrite H in E. exfalso. symmetry in E. revert E. apply has_app. apply no_app. auto.
    + destruct (HD _ _ N) as (r & H). destruct (HD _ _ N') as (r' & H'). rewrite H, H' in E. apply split_char in E; [|assumption|assumption].
      destruct E as (-> & E). rewrite <- E, <- H in H'. split; [reflexivity|]. apply TL. congruence.
Qed.
Print Assumptions C129_names_partial.
Theorem C129_names_refuted :
  (exists x y x' y', (x, y) <> (x', y') /\ line_name x y = line_name x' y') /\
  (exists z x y z' x' y', (z, x, y) <> (z', x', y') /\ im_line_name z x y = im_line_name z' x' y').
Proof.
  split.
  - exists "a-over-b", "c", "a", "b-over-c". split; [discriminate|reflexivity].
  - exists "a-x-1", None, (Some 2%Z), "a", (Some 1%Z), (Some 2%Z). split; [discriminate|reflexivity].
Qed.
Print Assumptions C129_names_refuted.

(** Non-vacuity *)
Example C129_example :
  (exists p, session FsModel.sort_s e_d p /\ p_x p = "x" /\ p_y p = "y") /\
  plot_line e_d "x" "y" = Ok [(0, 0); (1, 1); (2, 2)]%R /\
  row_curve [[1; 2]; [3; 4]; [5; 6]]%R (-1) = Ok [(INR 0, 5); (INR 1, 6)]%R /\
  column_curve [[1; 2]; [3; 4]; [5; 6]]%R 1 = Ok [(2, INR 0); (4, INR 1); (6, INR 2)]%R /\
  im_line_name "echo" (Some (-3)%Z) (Some 12%Z) = "fig-echo-x--3-y-12.png".
Proof.
  split.
  - apply (C129_complete FsModel.sort_s FsProofs.sort_perm e_d e_nodup "x" "y" "n"); try (split; [cbn; auto|reflexivity]); try discriminate.
    split; [cbn; lia|]. exists "x", "y". repeat split; try discriminate; cbn; auto.
  - repeat split; reflexivity.
Qed.
