(** From the L1A file to the L1B file: proofs. *)
From Coq Require Import String List ZArith Reals Bool Lia Lra Arith.
From Coq Require QArith Qreals.
From Verif Require Import Common GeoModel ReaderModel ReaderSpec ReaderProofs ChainModel WholeModel WholeSpec FileModel FileSpec FileProofs FileProps WriterModel EndModel EndSpec.
From Verif Require SurfModel GcorrModel SchModel SchSpec SchProofs SchProps WaveModel WaveSpec WaveProofs PktModel PktSpec PktProps WholeProps WriterSpec WriterProofs WriterProps.
Import ListNotations.
Local Open Scope string_scope.
Local Open Scope R_scope.

(** * Shapes *)
Lemma is_num_i : forall x, SchSpec.is_num (VNum x).
Proof. intros x. now exists x. Qed.
Lemma surf_num : forall j p l a k w f, usual j -> ~ In f SchSpec.stack_vectors -> f <> "waveform_multilooked" ->
  SchSpec.is_num (surf_field j p l a k w f).
Proof.
  intros j p l a k w f (_ & _ & U) N1 N2. unfold surf_field. cbv zeta.
  match goal with |- context [find ?q ?t] => destruct (find q t) as [e|] eqn:E end; [|apply U; assumption].
  apply find_some in E as (I & Q). apply String.eqb_eq in Q. subst f. cbn [In] in I.
  repeat (destruct I as [<-|I]; [first [apply is_num_i|exfalso; apply N2; reflexivity|exfalso; apply N1; cbn; tauto]|]). destruct I.
Qed.
Lemma usual_shaped : forall j fi input p, usual j ->
  SchSpec.shaped (GcorrModel.k_n (u_k (j_u j)) * u_zp (j_u j)) (c_looks (u_cf (j_u j))) (env_of j fi input p).
Proof.
  intros j fi input p UU. pose proof UU as (NL & NS & U).
  split; [|split; [|split; [|split; [|split]]]]; unfold env_of; cbv zeta; cbn [SchModel.e_surf SchModel.e_burst SchModel.e_local].
  - intros f I. assert (I' := I). cbn [SchSpec.stack_vectors In] in I.
    destruct I as [<-|[<-|[<-|[<-|[<-|[]]]]]]; try (apply U; exact I'); (do 2 eexists; split; [reflexivity|lia]).
  - do 2 eexists. split; [reflexivity|]. lia.
  - intros f N1 N2. apply surf_num; assumption.
  - intros f. apply is_num_i.
  - intros f I. cbn [SchSpec.stack_matrices In] in I. destruct I as [<-|[<-|[]]]; (do 3 eexists; split; [reflexivity|]; split; lia).
  - intros f I. unfold local_field. destruct (f =? "utc_days"); [apply is_num_i|]. destruct (f =? "utc_secs"); [apply is_num_i|].
    destruct (f =? "scale_factor"); [apply is_num_i|].
    destruct (String.eqb_spec f "stack_i") as [->|N1]; [exfalso; apply I; cbn; tauto|].
    destruct (String.eqb_spec f "stack_q") as [->|N2]; [exfalso; apply I; cbn; tauto|]. apply is_num_i.
Qed.

(** * The file *)
Definition outputs (j : job) (cancel : nat -> bool) (input : list witem) : list product := x_out (wfinal (whole (j_u j) cancel input)).
Lemma format_never : forall j, In (format j, SchSpec.l1b_never) SchSpec.nevers.
Proof. intros j. unfold format. destruct (j_ext j); cbn; tauto. Qed.
Lemma format_in : forall j, In (format j) SchSpec.products.
Proof. intros j. unfold format. destruct (j_ext j); cbn; tauto. Qed.
Lemma opens : forall j ns nl, exists tbl, SchModel.open_product (fun _ => true) (format j) ns nl = inr tbl /\
  forall e st, SchSpec.shaped ns nl e ->
    fst (write_record R (fun x => SchModel.find_assoc x tbl) (fun _ _ => true) st (SchModel.record_of (format j) e)) = None.
Proof.
  intros j ns nl. destruct (SchProps.C86_accepts (format j) (fun _ => true) (fun _ _ => true) ns nl (format_in j)) as (tbl & O & _ & _ & W); auto.
  exists tbl. split; assumption.
Qed.
Lemma l1b_some : forall j cancel fi, (exists r, l1b j cancel fi = Some r) <-> exists input, delivered (j_o j) (j_g j) fi = Ok input.
Proof.
  intros j cancel fi. unfold l1b. destruct (opens j (GcorrModel.k_n (u_k (j_u j)) * u_zp (j_u j)) (c_looks (u_cf (j_u j)))) as (tbl & -> & _).
  destruct (delivered (j_o j) (j_g j) fi) as [input|e]; split; intros (r & E); try discriminate; eauto.
Qed.

Lemma wa_answers : forall vars castable (rs : list (wrecord R)) st, (forall r st, In r rs -> fst (write_record R vars castable st r) = None) ->
  fst (write_all R vars castable st rs) = repeat None (length rs).
Proof.
  intros vars castable. induction rs as [|r rs IH]; intros st H; [reflexivity|]. cbn [write_all].
  pose proof (H r st (or_introl eq_refl)) as W. destruct (write_record R vars castable st r) as [o st1]. cbn [fst] in W. subst o.
  specialize (IH st1 ltac:(intros r' st' J; apply H; right; exact J)). destruct (write_all R vars castable st1 rs) as [os st2]. cbn [fst length repeat] in *.
  now rewrite IH.
Qed.
Lemma named_time : forall j, In ("time_l1b_echo_sar_ku", SchModel.SSurf "time_surf") (SchModel.p_writes (format j)).
Proof. intros j. unfold format. destruct (j_ext j); vm_compute; tauto. Qed.
Lemma file_of : forall j cancel fi input answers out, usual j -> delivered (j_o j) (j_g j) fi = Ok input -> l1b j cancel fi = Some (answers, out) ->
  let ps := outputs j cancel input in
  answers = repeat None (length ps) /\ w_len out = length ps /\
  (forall n p x s v a b r, nth_error ps n = Some p -> In (x, s) (SchModel.p_writes (format j)) ->
     SchModel.eval (env_of j fi input p) s = Some v -> elem R v a b = Some r -> w_tbl out x n a b = Some r).
Proof.
  intros j cancel fi input answers out U D L ps. unfold l1b in L. rewrite D in L.
  set (ns := (GcorrModel.k_n (u_k (j_u j)) * u_zp (j_u j))%nat) in *. set (nl := c_looks (u_cf (j_u j))) in *.
  destruct (opens j ns nl) as (tbl & O & W). rewrite O in L. change (x_out (wfinal (whole (j_u j) cancel input))) with ps in L.
  rewrite <- (map_map (env_of j fi input) (SchModel.record_of (format j))) in L. set (es := map (env_of j fi input) ps) in *.
  assert (SH : Forall (SchSpec.shaped ns nl) es).
  { unfold es. apply Forall_forall. intros e I. apply in_map_iff in I as (p & <- & _). apply usual_shaped. exact U. }
  injection L as L1. apply (f_equal snd) in L1 as L2. apply (f_equal fst) in L1. cbn [fst snd] in *.
  assert (LE : length es = length ps) by (unfold es; apply map_length).
  split; [|split].
  - rewrite <- L1, wa_answers; [rewrite map_length, LE; reflexivity|]. intros r st I. apply in_map_iff in I as (e & <- & I). apply W.
    rewrite Forall_forall in SH. exact (SH e I).
  - rewrite <- L2. rewrite <- LE, <- (map_length (SchModel.record_of (format j)) es).
    apply (proj1 (WriterProps.C35_count_partial R (fun x => SchModel.find_assoc x tbl) (fun _ _ => true) (map (SchModel.record_of (format j)) es))).
    apply Forall_forall. intros r I. apply in_map_iff in I as (e & <- & I). rewrite Forall_forall in SH. split.
    + apply (WriterProofs.wr_ok R _ _ (w_init R)). apply W. exact (SH e I).
    + exists "time_l1b_echo_sar_ku", (SchModel.e_surf e "time_surf"). unfold SchModel.record_of. apply in_map_iff.
      exists ("time_l1b_echo_sar_ku", SchModel.SSurf "time_surf"). split; [reflexivity|apply named_time].
  - intros n p x s v a b r N I E EL. rewrite <- L2.
    destruct (SchProps.C86_filled (format j) SchSpec.l1b_never (fun _ _ => true) ns nl es (format_never j) (fun _ _ => eq_refl) SH tbl O) as (_ & _ & F).
    apply (F n (env_of j fi input p) x s v a b r); try assumption. unfold es. rewrite nth_error_map, N. reflexivity.
Qed.

(** * Locations *)
Lemma eval_located : forall j fi input p x l y r, pr_surf p = Some x -> SurfModel.s_loc x = Some l ->
  In (y, r) (located (k_c (SurfModel.g_k (u_g (j_u j)))) l) ->
  exists s v, In ((y ++ "_l1b_echo_sar_ku")%string, s) (SchModel.p_writes (format j)) /\
    SchModel.eval (env_of j fi input p) s = Some v /\ elem R v 0 0 = Some r.
Proof.
  intros j fi input p x l y r X L I. unfold env_of. rewrite X, L. cbn [located In] in I.
  repeat (destruct I as [E|I]; [injection E as <- <-; 
    match goal with |- context [(?b ++ "_l1b_echo_sar_ku")%string] =>
      let w := eval vm_compute in (SchModel.find_assoc (b ++ "_l1b_echo_sar_ku")%string SchModel.ext_writes) in
      match w with Some ?s => exists s end end;
    eexists; split; [unfold format; destruct (j_ext j); vm_compute; tauto|]; split; [reflexivity|reflexivity]|]). destruct I.
Qed.

(** * The closest burst *)
Lemma closest_gen : forall pi es best who, (forall e, In e es -> snd e <> None) ->
  (exists k b a, nth_error es k = Some (b, a) /\ closest pi es best who = Some (fst b) /\
     (forall y, a = Some y -> (forall bd, best = Some bd -> Rabs (y - pi / 2) < bd) /\
        forall k' b' y', nth_error es k' = Some (b', Some y') ->
          Rabs (y - pi / 2) <= Rabs (y' - pi / 2) /\ ((k' < k)%nat -> Rabs (y - pi / 2) < Rabs (y' - pi / 2)))) \/
  (closest pi es best who = who /\ (es = [] \/ exists bd, best = Some bd /\ forall k' b' y', nth_error es k' = Some (b', Some y') -> bd <= Rabs (y' - pi / 2))).
Proof.
  intros pi. induction es as [|[[i c] [y|]] es IH]; intros best who H.
  - right. split; [reflexivity|now left].
  - cbn [closest]. cbv zeta. set (d := Rabs (y - pi / 2)).
    assert (H' : forall e, In e es -> snd e <> None) by (intros e I; apply H; now right).
    assert (D : {match best with None => true | Some b => if Rlt_dec d b then true else false end = true} + {match best with None => true | Some b => if Rlt_dec d b then true else false end = false})
      by (destruct (match best with None => true | Some b => if Rlt_dec d b then true else false end); auto).
    assert (BT : match best with None => true | Some b => if Rlt_dec d b then true else false end = true <-> forall bd, best = Some bd -> d < bd).
    { destruct best as [b|]; [|split; [discriminate|reflexivity]]. destruct (Rlt_dec d b) as [L|L]; split; try discriminate; try reflexivity.
      - intros _ bd [= <-]. exact L.
      - intros Q. exfalso. exact (L (Q b eq_refl)). }
    destruct D as [D|D]; rewrite D.
    + left. pose proof (proj1 BT D) as BD. destruct (IH (Some d) (Some i) H') as [(k & b & a & N & E & Q)|(E & Q)].
      * exists (S k), b, a. split; [exact N|]. split; [exact E|]. intros z ->. destruct (Q z eq_refl) as (Q1 & Q2). specialize (Q1 d eq_refl). split.
        -- intros bd Eb. specialize (BD bd Eb). lra.
        -- intros [|k'] b' y' N'; cbn in N'.
           ++ injection N' as <- <-. fold d. split; [lra|]. intros _. exact Q1.
           ++ destruct (Q2 k' b' y' N') as (A & B). split; [exact A|]. intros L. apply B. lia.
      * exists 0%nat, (i, c), (Some y). split; [reflexivity|]. split; [exact E|]. intros z [= <-]. fold d. split; [exact BD|].
        intros [|k'] b' y' N'; cbn in N'; [injection N' as <- <-; fold d; split; [lra|lia]|]. split; [|lia].
        destruct Q as [->|(bd & [= <-] & Q)]; [destruct k'; discriminate|]. exact (Q k' b' y' N').
    + destruct (IH best who H') as [(k & b & a & N & E & Q)|(E & Q)].
      * left. exists (S k), b, a. split; [exact N|]. split; [exact E|]. intros z ->. destruct (Q z eq_refl) as (Q1 & Q2). split; [exact Q1|].
        assert (NB : exists bd, best = Some bd /\ bd <= d).
        { destruct best as [b0|]; [|discriminate]. exists b0. split; [reflexivity|]. destruct (Rlt_dec d b0); [discriminate|lra]. }
        destruct NB as (bd & Eb & Lb). specialize (Q1 bd Eb).
        intros [|k'] b' y' N'; cbn in N'; [injection N' as <- <-; fold d; split; intros; lra|].
        destruct (Q2 k' b' y' N') as (A & B). split; [exact A|]. intros L. apply B. lia.
      * right. split; [exact E|]. right. destruct best as [b0|]; [|discriminate]. exists b0. split; [reflexivity|].
        assert (Lb : b0 <= d) by (destruct (Rlt_dec d b0); [discriminate|lra]).
        intros [|k'] b' y' N'; cbn in N'; [injection N' as <- <-; exact Lb|]. destruct Q as [->|(bd & [= <-] & Q)]; [destruct k'; discriminate|]. exact (Q k' b' y' N').
  - exfalso. apply (H (i, c, None)); [now left|reflexivity].
Qed.
Lemma closest_is : forall pi es, es <> [] -> (forall e, In e es -> snd e <> None) ->
  exists i, closest pi es None None = Some i /\ first_nearest pi es i.
Proof.
  intros pi es NE H. destruct (closest_gen pi es None None H) as [(k & [i b] & a & N & E & Q)|(_ & [->|(bd & F & _)])]; [|congruence|discriminate].
  exists i. split; [exact E|]. destruct a as [y|]; [|exfalso; exact (H _ (nth_error_In _ _ N) eq_refl)]. destruct (Q y eq_refl) as (_ & Q2).
  exists k, b, y. split; [exact N|]. intros k' i' b' a' N'. exact (Q2 k' (i', b') a' N').
Qed.
Lemma nearest_one : forall pi es i i', first_nearest pi es i -> first_nearest pi es i' -> i = i'.
Proof.
  intros pi es i i' (k & b & a & N & Q) (k' & b' & a' & N' & Q'). destruct (Nat.lt_trichotomy k k') as [L|[->|L]].
  - destruct (Q k' i' b' a' N') as (A & _). destruct (Q' k i b a N) as (_ & B). specialize (B L). lra.
  - rewrite N in N'. now injection N' as <-.
  - destruct (Q' k i b a N) as (A & _). destruct (Q k' i' b' a' N') as (_ & B). specialize (B L). lra.
Qed.

(** * What is copied *)
Lemma get_cells : forall o fi i, complete o fi -> (i < f_size fi)%nat ->
  exists c, fst (get_item o fi i fresh) = Ok c /\ forall v, In v names -> c v = cell_at fi i v.
Proof.
  intros o fi i (L & _ & T & P) I. unfold get_item.
  destruct (reads_all fi (n_chunk o) names i fresh P (good_fresh _ _ _ _)) as (r' & -> & G'); [intros v V; rewrite (L v V); exact I|].
  rewrite collect_ok. set (c := value_of (map (fun v => (v, cell_at fi i v)) names)).
  assert (C : forall v, In v names -> c v = cell_at fi i v) by (intros v V; apply value_of_map; exact V).
  assert (IG : In v_gprw names) by (vm_compute; tauto).
  assert (X : (n_cal2 o < length (table (c v_gprw)))%nat).
  { rewrite (C _ IG). rewrite Forall_forall in T.
    destruct (T (cell_at fi i v_gprw)) as (l & -> & B); [|exact B]. unfold cell_at. apply nth_In. rewrite (L _ IG). exact I. }
  apply Nat.ltb_lt in X. rewrite X. exists c. split; [reflexivity|exact C].
Qed.
Lemma field_at : forall j fi i f, complete (j_o j) fi -> (i < f_size fi)%nat -> burst_field j fi i f = arg (j_o j) (cell_at fi i) f.
Proof.
  intros j fi i f C I. unfold burst_field. destruct (get_cells (j_o j) fi i C I) as (c & -> & H). apply arg_same. exact H.
Qed.
(** the attribute behind a variable that is copied *)
Definition source (b : string) : option string :=
  match SchModel.find_assoc (b ++ "_l1b_echo_sar_ku") SchModel.std_writes with Some (SchModel.SBurst f) => Some f | _ => None end.
Lemma copied_ok : forallb (fun b => match source b with
    | Some f => existsb (fun kv => ((fst kv =? b ++ "_l1b_echo_sar_ku") && match snd kv with SchModel.SBurst f' => f' =? f | _ => false end)%bool) SchModel.std_writes &&
                existsb (fun kv => ((fst kv =? b ++ "_l1b_echo_sar_ku") && match snd kv with SchModel.SBurst f' => f' =? f | _ => false end)%bool) SchModel.ext_writes &&
                match find (fun a => fst a =? f) PktModel.attributes with Some (_, PktModel.AVar v) => v =? b ++ "_l1a_echo_sar_ku" | _ => false end
    | None => false end)%bool copied = true.
Proof. vm_compute. reflexivity. Qed.
Lemma copied_from : forall b, In b copied -> exists f, (forall j, In ((b ++ "_l1b_echo_sar_ku")%string, SchModel.SBurst f) (SchModel.p_writes (format j))) /\
  forall o fi i, arg o (cell_at fi i) f = number_at fi i b.
Proof.
  intros b I. pose proof copied_ok as G. rewrite forallb_forall in G. specialize (G b I). destruct (source b) as [f|]; [|discriminate].
  apply andb_true_iff in G as (G & G3). apply andb_true_iff in G as (G1 & G2). exists f. split.
  - assert (X : forall ws, existsb (fun kv => ((fst kv =? b ++ "_l1b_echo_sar_ku") && match snd kv with SchModel.SBurst f' => f' =? f | _ => false end)%bool) ws = true ->
      In ((b ++ "_l1b_echo_sar_ku")%string, SchModel.SBurst f) ws).
    { intros ws E. apply existsb_exists in E as ([x s] & J & E). cbn [fst snd] in E. apply andb_true_iff in E as (E1 & E2). apply String.eqb_eq in E1. subst x.
      destruct s; try discriminate. apply String.eqb_eq in E2. now subst. }
    intros j. unfold format. destruct (j_ext j); [exact (X _ G2)|exact (X _ G1)].
  - intros o fi i. unfold arg, PktModel.attribute. destruct (find (fun a => fst a =? f) PktModel.attributes) as [[g [v|a|c|z| ]]|]; try discriminate.
    apply String.eqb_eq in G3. subst v. reflexivity.
Qed.

Lemma first_is : forall o g fi input, complete o fi -> delivered o g fi = Ok input ->
  (first_record g fi + length input <= f_size fi)%nat /\
  forall i, (i < length input)%nat -> exists it, nth_error input i = Some it /\ item_for o g fi (first_record g fi + i) it.
Proof.
  intros o g fi input C D. unfold first_record. destruct (open_dataset g (positions fi)) as [d|e] eqn:E; [|unfold delivered in D; rewrite E in D; discriminate].
  pose proof (delivered_is o g fi d C E) as D'. rewrite D in D'. injection D' as ->. destruct (opened o g fi d C E) as (_ & B & _).
  rewrite map_length, seq_length. split; [lia|]. intros i L. exists (item_of o d fi (ReaderModel.d_start d + i)). split; [|apply item_of_for; [exact C|exact E|lia]].
  rewrite nth_error_map, (nth_error_nth' (seq (ReaderModel.d_start d) (d_final d - ReaderModel.d_start d)) 0%nat) by (rewrite seq_length; lia).
  rewrite seq_nth by lia. reflexivity.
Qed.
Lemma stack_numbers : forall u cancel input p, SurfModel.g_focus (u_g u) = false -> In p (x_out (wfinal (whole u cancel input))) ->
  forall e, In e (WaveModel.chosen u input p) -> snd e <> None /\ (fst (fst e) < length input)%nat.
Proof.
  intros u cancel input p NF IP e I. rewrite WaveProofs.chosen_kept in I. apply WaveProofs.kept_in in I.
  pose proof (WholeProps.C122_stack u cancel input NF) as S. rewrite Forall_forall in S. destruct (S p IP) as (x & _ & _ & Q).
  destruct e as [[i b] a]. destruct (Q i b a I) as (l & r & a' & _ & N & -> & _). split; [discriminate|]. cbn [fst]. apply nth_error_Some. congruence.
Qed.

(** * Waveforms *)
Lemma surf_wave : forall j p l a k w, surf_field j p l a k w "waveform_multilooked" =
  VVec (GcorrModel.k_n (u_k (j_u j)) * u_zp (j_u j)) (fun i => number j (nth i w None)).
Proof. reflexivity. Qed.
Lemma eval_wave_std : forall j fi input p w m x, j_ext j = false -> WaveModel.wave_of (j_u j) (j_v j) input p = Some w ->
  (m < GcorrModel.k_n (u_k (j_u j)) * u_zp (j_u j))%nat -> nth m w None = Some x ->
  exists s v, In (("i2q2_meas_ku" ++ "_l1b_echo_sar_ku")%string, s) (SchModel.p_writes (format j)) /\
    SchModel.eval (env_of j fi input p) s = Some v /\ elem R v m 0 = Some x.
Proof.
  intros j fi input p w m x X W L N. unfold env_of. rewrite W. exists (SchModel.SSurf "waveform_multilooked"). eexists.
  split; [unfold format; rewrite X; vm_compute; tauto|]. split; [reflexivity|]. cbn [SchModel.e_surf]. rewrite surf_wave. cbn [elem]. apply Nat.ltb_lt in L. rewrite L. cbn [andb Nat.eqb]. rewrite N. reflexivity.
Qed.
Lemma eval_wave_ext : forall j fi input p w m x t, j_ext j = true -> WaveModel.wave_of (j_u j) (j_v j) input p = Some w ->
  (m < GcorrModel.k_n (u_k (j_u j)) * u_zp (j_u j))%nat -> nth m w None = Some x -> WaveModel.scale_factor w = Some t ->
  (exists s v, In (("i2q2_meas_ku" ++ "_l1b_echo_sar_ku")%string, s) (SchModel.p_writes (format j)) /\
    SchModel.eval (env_of j fi input p) s = Some v /\ elem R v m 0 = Some (x / t)) /\
  (exists s v, In (("i2q2_scale_factor" ++ "_l1b_echo_sar_ku")%string, s) (SchModel.p_writes (format j)) /\
    SchModel.eval (env_of j fi input p) s = Some v /\ elem R v 0 0 = Some t).
Proof.
  intros j fi input p w m x t X W L N T. unfold env_of. rewrite W. split.
  - exists (SchModel.SDiv (SchModel.SSurf "waveform_multilooked") (SchModel.SLocal "scale_factor")). eexists.
    split; [unfold format; rewrite X; vm_compute; tauto|]. split; [reflexivity|]. cbn [SchModel.e_surf SchModel.e_local]. rewrite surf_wave.
    unfold local_field. rewrite X, T. cbn [String.eqb Ascii.eqb Bool.eqb SchModel.vop SchModel.vmap elem number]. apply Nat.ltb_lt in L. rewrite L. cbn [andb Nat.eqb]. rewrite N. reflexivity.
  - exists (SchModel.SLocal "scale_factor"). eexists. split; [unfold format; rewrite X; vm_compute; tauto|]. split; [reflexivity|].
    unfold local_field. rewrite X, T. reflexivity.
Qed.
(** every sample is a number when one is, if zeros are not avoided *)
Lemma add_counts : forall v N zp, WaveModel.v_avoid v = false -> forall ks sum c s c', WaveModel.add_looks v N zp ks sum (repeat c (N * zp)) = Some (s, c') ->
  exists d, c' = repeat d (N * zp).
Proof.
  intros v N zp A. induction ks as [|k ks IH]; intros sum c s c' E; cbn [WaveModel.add_looks] in E; [injection E as _ <-; eauto|].
  destruct (WaveModel.weighted v k (WaveModel.masked v N zp k)) as [row|]; [|discriminate]. destruct (WaveModel.vector_of v N zp k) as [z|]; [|discriminate].
  destruct (z =? 0)%Z; [exact (IH _ _ _ _ E)|]. rewrite A in E.
  assert (Z : forall n, WaveModel.zipw Rplus (repeat c n) (repeat 1 n) = repeat (c + 1) n) by (intros n; induction n as [|n I]; cbn [repeat WaveModel.zipw]; [reflexivity|rewrite I; reflexivity]).
  rewrite Z in E. exact (IH _ _ _ _ E).
Qed.
Lemma quotients_same : forall s d n, (forall m, (m < n)%nat -> (m < length s)%nat -> nth m (WaveModel.quotients s (repeat d n)) None <> None) \/
  (forall m, nth m (WaveModel.quotients s (repeat d n)) None = None).
Proof.
  intros s d n. destruct (Req_EM_T d 0) as [Z|Z].
  - right. revert n. induction s as [|x s IH]; intros [|n] m; cbn [WaveModel.quotients repeat]; try (destruct m; reflexivity).
    unfold WaveModel.quotient. destruct (Req_EM_T d 0); [|contradiction]. destruct m; [reflexivity|apply IH].
  - left. revert n. induction s as [|x s IH]; intros [|n] m L1 L2; cbn [length] in L2; try lia. cbn [WaveModel.quotients repeat].
    unfold WaveModel.quotient at 1. destruct (Req_EM_T d 0); [contradiction|]. destruct m as [|m]; [discriminate|]. cbn [nth]. apply IH; lia.
Qed.
Lemma quotients_len : forall s c, length (WaveModel.quotients s c) = Nat.min (length s) (length c).
Proof. induction s as [|x s IH]; intros [|y c]; cbn; try reflexivity. now rewrite IH. Qed.
Lemma wave_numbers : forall u v input p w c x, WaveModel.v_avoid v = false -> WaveModel.wave_of u v input p = Some w -> nth c w None = Some x ->
  forall m, (m < length w)%nat -> nth m w None <> None.
Proof.
  intros u v input p w c x A W N m L. unfold WaveModel.wave_of in W. destruct (pr_surf p) as [sx|]; [|discriminate]. destruct (pr_looks p) as [rows|]; [|discriminate].
  destruct (SurfModel.s_loc sx) as [l|]; [|discriminate]. destruct (WaveModel.looks_with _ _ _ _ _) as [ks|]; [|discriminate].
  unfold WaveModel.multilooked in W. destruct (WaveModel.add_looks _ _ _ ks _ _) as [[s c0]|] eqn:E; [|discriminate]. injection W as <-.
  destruct (add_counts v _ _ A ks _ _ _ _ E) as (d & ->). rewrite quotients_len, repeat_length in L.
  destruct (quotients_same s d (GcorrModel.k_n (u_k u) * u_zp u)) as [Q|Q]; [apply Q; lia|]. rewrite Q in N. discriminate.
Qed.
Lemma nearest_int : forall rnd z, SchSpec.nearest rnd -> rnd (IZR z) = z.
Proof.
  intros rnd z H. specialize (H (IZR z)). rewrite <- minus_IZR, <- abs_IZR in H. assert (B : (Z.abs (rnd (IZR z) - z) < 1)%Z) by (apply lt_IZR; lra). lia.
Qed.
Lemma nearest_mono : forall rnd x (a b : Z), SchSpec.nearest rnd -> IZR a <= x <= IZR b -> (a <= rnd x <= b)%Z.
Proof.
  intros rnd x a b H B. specialize (H x). assert (H' : - (1 / 2) <= IZR (rnd x) - x <= 1 / 2) by (revert H; unfold Rabs; destruct (Rcase_abs _); intros; lra). split; apply Z.lt_succ_r, lt_IZR; rewrite succ_IZR; lra.
Qed.
Lemma stored_count : forall j rnd wrap out n m y, j_ext j = true -> SchSpec.nearest rnd -> 0 <= y <= 1 ->
  said out n "i2q2_meas_ku" m = Some y ->
  stored j rnd wrap out "i2q2_meas_ku_l1b_echo_sar_ku" n m = Some (rnd (y * 4294967294)) /\ (0 <= rnd (y * 4294967294)%R <= 4294967294)%Z.
Proof.
  intros j rnd wrap out n m y X NR B S. assert (RB : (0 <= rnd (y * 4294967294)%R <= 4294967294)%Z) by (apply (nearest_mono rnd _ _ _ NR); lra). split; [|exact RB].
  unfold said in S. change (("i2q2_meas_ku" ++ "_l1b_echo_sar_ku")%string) with "i2q2_meas_ku_l1b_echo_sar_ku" in S.
  unfold stored. rewrite S. unfold format. rewrite X.
  let f := eval vm_compute in (find (fun v => SchModel.v_name v =? "i2q2_meas_ku_l1b_echo_sar_ku") SchModel.ext_vars) in
  replace (find (fun v => SchModel.v_name v =? "i2q2_meas_ku_l1b_echo_sar_ku") (SchModel.p_vars SchModel.ext_product)) with f by (vm_compute; reflexivity).
  cbn [SchModel.v_type SchModel.is_int]. f_equal. unfold SchModel.pack. cbn [SchModel.v_offset SchModel.v_scale SchModel.v_type SchModel.qor].
  replace ((y - Q2R (QArith.QArith_base.Qmake 0 1)) / Q2R (QArith.QArith_base.Qmake 1 4294967294)) with (y * 4294967294).
  - unfold SchModel.cast. cbn [SchModel.tmin SchModel.tmax]. destruct (Z.leb_spec 0 (rnd (y * 4294967294))); [|lia].
    destruct (Z.leb_spec (rnd (y * 4294967294)) 4294967295); [|lia]. reflexivity.
  - unfold Q2R. cbn [QArith.QArith_base.Qnum QArith.QArith_base.Qden]. field.
Qed.
