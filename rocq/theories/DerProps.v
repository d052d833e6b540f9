(** C142: the values derived from the characterisation file. *)
From Coq Require Import String List ZArith QArith Bool Lia Setoid.
From Verif Require Import Common Dict ConfModel ConfData ConfSpec ConfProps DerModel DerSpec.
Import ListNotations.
Local Open Scope string_scope.
Local Open Scope Q_scope.
Local Open Scope list_scope.

Section Values.
Variable text : string -> option Q.
Notation number := (number text).
Notation param := (param text).
Notation read := (read text).
Notation reads := (reads text).
Notation fresh_value := (fresh_value text).
Notation has := (has text).
Notation stands := (stands text).
Notation meaning := (meaning text).

Lemma number_has : forall c d x q, declares c x = true -> has d x q -> number c d x = Ok q.
Proof.
  intros c d x q D (j & H & M). unfold number, compute, retrieve, float_param, mk_param. cbn [p_name o_class o_data]. rewrite D, H.
  destruct j; try discriminate M; cbn in M |- *; [injection M as <-|injection M as <-|rewrite M]; reflexivity.
Qed.
Lemma has_fun : forall d x q q', has d x q -> has d x q' -> q = q'.
Proof. intros d x q q' (j & H & M) (j' & H' & M'). congruence. Qed.
Lemma number_absent : forall c d x, dget x d = None -> number c d x = Err (DConf EMissing).
Proof.
  intros c d x H. unfold number, compute, retrieve, float_param, mk_param. cbn [p_name o_class o_data p_optional is_null negb orb]. rewrite H.
  destruct (declares c x); reflexivity.
Qed.
Lemma number_null : forall c d x, declares c x = true -> dget x d = Some JNull -> number c d x = Err (DConf EParamType).
Proof. intros c d x D H. unfold number, compute, retrieve, float_param, mk_param. cbn [p_name o_class o_data]. rewrite D, H. reflexivity. Qed.
Lemma number_text : forall c d x j, declares c x = true -> dget x d = Some j -> j <> JNull -> meaning j = None -> number c d x = Err (DConf EConv).
Proof.
  intros c d x j D H N M. unfold number, compute, retrieve, float_param, mk_param. cbn [p_name o_class o_data]. rewrite D, H.
  destruct j; try discriminate M; cbn in M |- *; [now elim N|rewrite M| |]; reflexivity.
Qed.
Lemma over_ok : forall a b, ~ b == 0 -> exists v, over a b = Ok v /\ v * b == a.
Proof.
  intros a b H. unfold over. destruct (Qeq_bool b 0) eqn:E; [apply Qeq_bool_eq in E; contradiction|]. exists (a / b). split; [reflexivity|]. field. exact H.
Qed.

Lemma dpop_absent : forall k (d : dict json), dget k d = None -> dpop k d = d.
Proof.
  induction d as [|[x v] d IH]; intros H; [reflexivity|]. cbn in H |- *. destruct (k =? x)%string; [discriminate|]. now rewrite IH.
Qed.
Ltac decl := vm_compute; reflexivity.
(** Each value is the quotient it is said to be, when the parameters are numbers and
    the denominators are not zero. *)
Theorem C142_values : forall cst h n, sound text cst (h_data h) n -> (n = Chirp -> h_chirp h = JNull) -> (n = Wave -> h_wv h = JNull) ->
  exists v, snd (read cst h n) = Ok (JNum v) /\ fulfils text cst (h_data h) n v.
Proof.
  intros cst h n S HC HW.
  assert (FV : exists v, fresh_value cst h n = Ok (JNum v) /\ fulfils text cst (h_data h) n v).
  { unfold fresh_value, param. destruct n; cbn [order] in S.
    - destruct (S "prf_sar_chd" ltac:(cbn; tauto)) as (q & Hq & Z). rewrite (number_has _ _ _ q) by (exact Hq || decl). cbn [bind].
      destruct (over_ok 1 q) as (v & -> & E); [apply Z; cbn; tauto|]. exists v. split; [reflexivity|]. intros f Hf. rewrite (has_fun _ _ _ _ Hf Hq). exact E.
    - destruct (S "brf_sar_chd" ltac:(cbn; tauto)) as (q & Hq & Z). rewrite (number_has _ _ _ q) by (exact Hq || decl). cbn [bind].
      destruct (over_ok 1 q) as (v & -> & E); [apply Z; cbn; tauto|]. exists v. split; [reflexivity|]. intros f Hf. rewrite (has_fun _ _ _ _ Hf Hq). exact E.
    - destruct (S "bw_ku_chd" ltac:(cbn; tauto)) as (b & Hb & _). destruct (S "pulse_length_chd" ltac:(cbn; tauto)) as (q & Hq & Z).
      rewrite (number_has _ _ _ b) by (exact Hb || decl). cbn [bind]. rewrite (number_has _ _ _ q) by (exact Hq || decl). cbn [bind].
      destruct (over_ok b q) as (v & -> & E); [apply Z; cbn; tauto|]. exists v. split; [reflexivity|]. intros b' f Hb' Hf. rewrite (has_fun _ _ _ _ Hf Hq), (has_fun _ _ _ _ Hb' Hb). exact E.
    - destruct (S "c_cst" ltac:(cbn; tauto)) as (b & Hb & _). destruct (S "freq_ku_chd" ltac:(cbn; tauto)) as (q & Hq & Z).
      rewrite (number_has _ _ _ b) by (exact Hb || decl). cbn [bind]. rewrite (number_has _ _ _ q) by (exact Hq || decl). cbn [bind].
      destruct (over_ok b q) as (v & -> & E); [apply Z; cbn; tauto|]. exists v. split; [reflexivity|]. intros b' f Hb' Hf. rewrite (has_fun _ _ _ _ Hf Hq), (has_fun _ _ _ _ Hb' Hb). exact E.
    - destruct (S "uso_freq_nom_chd" ltac:(cbn; tauto)) as (u & Hu & Zu). destruct (S "alt_freq_multiplier_chd" ltac:(cbn; tauto)) as (m & Hm & Zm).
      rewrite (number_has _ _ _ u) by (exact Hu || decl). cbn [bind]. rewrite (number_has _ _ _ m) by (exact Hm || decl). cbn [bind].
      destruct (over_ok 1 (u * m)) as (v & -> & E).
      { intros X. apply Qmult_integral in X as [X|X]; revert X; [apply Zu|apply Zm]; cbn; tauto. }
      exists v. split; [reflexivity|]. intros u' m' Hu' Hm'. rewrite (has_fun _ _ _ _ Hu' Hu), (has_fun _ _ _ _ Hm' Hm). exact E. }
  destruct FV as (v & F & Q). exists v. split; [|exact Q]. unfold read. destruct n; try exact F; rewrite ?(HC eq_refl), ?(HW eq_refl), F; reflexivity.
Qed.

(** Otherwise reading it is an error: of the first parameter that is missing, null or
    does not stand for a number; or of a zero to divide by. *)
Theorem C142_errors : forall cst h n, (n = Chirp -> h_chirp h = JNull) -> (n = Wave -> h_wv h = JNull) ->
  (forall pre x post, order n = pre ++ x :: post -> (forall y, In y pre -> exists q, stands cst (h_data h) y q) ->
     (look cst (h_data h) x = None -> snd (read cst h n) = Err (DConf EMissing)) /\
     (look cst (h_data h) x = Some JNull -> snd (read cst h n) = Err (DConf EParamType)) /\
     (forall j, look cst (h_data h) x = Some j -> j <> JNull -> meaning j = None -> snd (read cst h n) = Err (DConf EConv))) /\
  ((forall y, In y (order n) -> exists q, stands cst (h_data h) y q) ->
   (exists x q, In x (denominators n) /\ has (h_data h) x q /\ q == 0) -> snd (read cst h n) = Err DZero).
Proof.
  intros cst h n HC HW.
  assert (R : forall e, fresh_value cst h n = Err e -> snd (read cst h n) = Err e).
  { intros e F. unfold read. destruct n; try exact F; rewrite ?(HC eq_refl), ?(HW eq_refl), F; reflexivity. }
  split.
  - intros pre x post O P.
    assert (Q1 : forall e, (look cst (h_data h) x = None /\ e = DConf EMissing \/ look cst (h_data h) x = Some JNull /\ e = DConf EParamType \/
                  exists j, look cst (h_data h) x = Some j /\ j <> JNull /\ meaning j = None /\ e = DConf EConv) -> snd (read cst h n) = Err e).
    { intros e HE. apply R.
      assert (NX : forall c d, declares c x = true -> dget x d = look cst (h_data h) x -> number c d x = Err e).
      { intros c d D EQ. destruct HE as [(E & ->)|[(E & ->)|(s & E & N & T & ->)]]; rewrite E in EQ;
          [apply number_absent|apply number_null|apply (number_text _ _ _ s)]; assumption. }
      destruct n; cbn [order] in O; (destruct pre as [|a [|b pre]]; cbn [app] in O; [| |destruct pre; discriminate O]); try discriminate O;
        injection O; intros; subst; unfold fresh_value, param.
      - rewrite NX by (reflexivity || decl). reflexivity.
      - rewrite NX by (reflexivity || decl). reflexivity.
      - rewrite NX by (reflexivity || decl). reflexivity.
      - destruct (P "bw_ku_chd" (or_introl eq_refl)) as (q & Hq). rewrite (number_has _ _ _ q) by (exact Hq || decl). cbn [bind]. rewrite NX by (reflexivity || decl). reflexivity.
      - rewrite NX by (reflexivity || decl). reflexivity.
      - destruct (P "c_cst" (or_introl eq_refl)) as (q & Hq). rewrite (number_has _ _ _ q) by (exact Hq || decl). cbn [bind]. rewrite NX by (reflexivity || decl). reflexivity.
      - rewrite NX by (reflexivity || decl). reflexivity.
      - destruct (P "uso_freq_nom_chd" (or_introl eq_refl)) as (q & Hq). rewrite (number_has _ _ _ q) by (exact Hq || decl). cbn [bind]. rewrite NX by (reflexivity || decl). reflexivity. }
    split; [|split].
    + intros E. apply Q1. now left.
    + intros E. apply Q1. right. now left.
    + intros j E N T. apply Q1. right. right. now exists j.
  - intros A (x & q & I & Hq & Z). apply R.
    assert (OV : forall a b, b == 0 -> over a b = Err DZero) by (intros a b B; unfold over; rewrite (proj2 (Qeq_bool_iff _ _) B); reflexivity).
    unfold fresh_value, param. destruct n; cbn [denominators] in I.
    + destruct I as [<-|[]]. rewrite (number_has _ _ _ q) by (exact Hq || decl). cbn [bind]. rewrite OV by exact Z. reflexivity.
    + destruct I as [<-|[]]. rewrite (number_has _ _ _ q) by (exact Hq || decl). cbn [bind]. rewrite OV by exact Z. reflexivity.
    + destruct (A "bw_ku_chd" ltac:(cbn; tauto)) as (b & Hb). rewrite (number_has _ _ _ b) by (exact Hb || decl). cbn [bind].
      destruct I as [<-|[]]. rewrite (number_has _ _ _ q) by (exact Hq || decl). cbn [bind]. rewrite OV by exact Z. reflexivity.
    + destruct (A "c_cst" ltac:(cbn; tauto)) as (b & Hb). rewrite (number_has _ _ _ b) by (exact Hb || decl). cbn [bind].
      destruct I as [<-|[]]. rewrite (number_has _ _ _ q) by (exact Hq || decl). cbn [bind]. rewrite OV by exact Z. reflexivity.
    + destruct (A "uso_freq_nom_chd" ltac:(cbn; tauto)) as (b & Hb). destruct (A "alt_freq_multiplier_chd" ltac:(cbn; tauto)) as (m & Hm).
      rewrite (number_has _ _ _ b) by (exact Hb || decl). cbn [bind]. rewrite (number_has _ _ _ m) by (exact Hm || decl). cbn [bind].
      rewrite OV; [reflexivity|]. destruct I as [<-|[<-|[]]].
      * assert (q = b) as -> by (exact (has_fun _ _ _ _ Hq Hb)). rewrite Z. ring.
      * assert (q = m) as -> by (exact (has_fun _ _ _ _ Hq Hm)). rewrite Z. ring.
Qed.

(** Values kept do not show: in any order and number of reads each gives what it
    gives first. *)
Lemma read_step : forall cst h n m, snd (read cst (fst (read cst h n)) m) = snd (read cst h m).
Proof.
  intros cst h n m.
  assert (NN : forall k v, fresh_value cst h k = Ok v -> is_null v = false).
  { intros k v. unfold fresh_value, num_res. match goal with |- match ?r with _ => _ end = _ -> _ => destruct r end; intros [= <-]; reflexivity. }
  assert (K : forall h1, h_data h1 = h_data h -> forall k, fresh_value cst h1 k = fresh_value cst h k).
  { intros h1 E k. unfold fresh_value, param. rewrite E. reflexivity. }
  unfold read. destruct n; try reflexivity.
  - destruct (is_null (h_chirp h)) eqn:E; [|cbn [fst]; destruct m; rewrite ?E; reflexivity]. destruct (fresh_value cst h Chirp) as [v|e] eqn:F; [|cbn [fst]; destruct m; rewrite ?E, ?F; reflexivity]. cbn [fst].
    destruct m; cbn [h_chirp h_wv h_data]; rewrite ?(K (mk_chd (h_data h) (h_wv h) v) eq_refl); try reflexivity.
    + rewrite (NN _ _ F), ?E, ?F. reflexivity.
    + destruct (is_null (h_wv h)); [|reflexivity]. destruct (fresh_value cst h Wave); reflexivity.
  - destruct (is_null (h_wv h)) eqn:E; [|cbn [fst]; destruct m; rewrite ?E; reflexivity]. destruct (fresh_value cst h Wave) as [v|e] eqn:F; [|cbn [fst]; destruct m; rewrite ?E, ?F; reflexivity]. cbn [fst].
    destruct m; cbn [h_chirp h_wv h_data]; rewrite ?(K (mk_chd (h_data h) v (h_chirp h)) eq_refl); try reflexivity.
    + destruct (is_null (h_chirp h)); [|reflexivity]. destruct (fresh_value cst h Chirp); reflexivity.
    + rewrite (NN _ _ F), ?E, ?F. reflexivity.
Qed.
Theorem C142_kept : forall cst l h, snd (reads cst h l) = map (fun n => snd (read cst h n)) l.
Proof.
  intros cst. induction l as [|n l IH]; intros h; [reflexivity|]. cbn [DerModel.reads map]. specialize (IH (fst (read cst h n))).
  pose proof (read_step cst h n) as RS. destruct (read cst h n) as [h1 a]. cbn [fst snd] in *. destruct (reads cst h1 l) as [h2 b]. cbn [snd] in *.
  rewrite IH. f_equal. apply map_ext. exact RS.
Qed.

(** A wavelength or slope given to the object is used as it is, whatever the file
    says, and changes nothing else. *)
Theorem C142_given : forall cst doc kw h w, is_dict kw -> new_chd doc kw = Ok (h, w) ->
  (forall v, dget "wv_length_ku_chd" kw = Some v -> v <> JNull -> snd (read cst h Wave) = Ok v) /\
  (forall v, dget "chirp_slope_ku_chd" kw = Some v -> v <> JNull -> snd (read cst h Chirp) = Ok v) /\
  exists h0, new_chd doc (dpop "chirp_slope_ku_chd" (dpop "wv_length_ku_chd" kw)) = Ok (h0, w) /\
    (forall n, n <> Wave -> n <> Chirp -> snd (read cst h n) = snd (read cst h0 n)) /\
    (dget "wv_length_ku_chd" kw = None -> snd (read cst h Wave) = snd (read cst h0 Wave)) /\
    (dget "chirp_slope_ku_chd" kw = None -> snd (read cst h Chirp) = snd (read cst h0 Chirp)).
Proof.
  intros cst doc kw h w DK N. unfold new_chd in N |- *. cbv zeta in N |- *. set (kw1 := dpop "wv_length_ku_chd" kw) in *.
  assert (P1 : popped "chirp_slope_ku_chd" kw1 = popped "chirp_slope_ku_chd" kw).
  { unfold popped, kw1. rewrite dget_dpop by exact DK. reflexivity. }
  rewrite P1 in N. set (kw2 := dpop "chirp_slope_ku_chd" kw1) in *.
  assert (D1 : is_dict kw1) by (apply is_dict_dpop; exact DK). assert (D2 : is_dict kw2) by (apply is_dict_dpop; exact D1).
  assert (G1 : dget "wv_length_ku_chd" kw2 = None).
  { unfold kw2. rewrite dget_dpop by exact D1. unfold kw1. rewrite dget_dpop by exact DK. reflexivity. }
  assert (G2 : dget "chirp_slope_ku_chd" kw2 = None) by (unfold kw2; rewrite dget_dpop by exact D1; reflexivity).
  destruct (load chd_class doc kw2) as [[d w']|e] eqn:L; [|discriminate]. injection N as <- <-.
  split; [|split].
  - intros v E NV. unfold read. cbn [h_wv]. unfold popped. rewrite E. destruct v; try reflexivity. now elim NV.
  - intros v E NV. unfold read. cbn [h_chirp]. unfold popped. rewrite E. destruct v; try reflexivity. now elim NV.
  - assert (I1 : dpop "wv_length_ku_chd" kw2 = kw2) by (apply dpop_absent; exact G1). rewrite I1.
    assert (I2 : dpop "chirp_slope_ku_chd" kw2 = kw2) by (apply dpop_absent; exact G2). rewrite I2, L. eexists. split; [reflexivity|].
    assert (F : forall a b a' b' n, fresh_value cst (mk_chd d a b) n = fresh_value cst (mk_chd d a' b') n) by (intros; reflexivity).
    unfold popped. rewrite G1, G2. split; [|split].
    + intros n N1 N2. destruct n; try reflexivity; contradiction.
    + intros ->. unfold read. cbn [h_wv is_null]. rewrite (F _ _ JNull JNull Wave). destruct (fresh_value cst _ Wave); reflexivity.
    + intros ->. unfold read. cbn [h_chirp is_null]. rewrite (F _ _ JNull JNull Chirp). destruct (fresh_value cst _ Chirp); reflexivity.
Qed.

(** But in a file they are of no use: there is a warning, and all values are those of
    the file without them. *)
Theorem C142_in_file : forall cst d1 d2 k p kw h w h0 w0, is_dict kw -> is_dict (d1 ++ (k, p) :: d2) ->
  In k ["wv_length_ku_chd"; "chirp_slope_ku_chd"] ->
  new_chd (Some (JObj (d1 ++ (k, p) :: d2))) kw = Ok (h, w) -> new_chd (Some (JObj (d1 ++ d2))) kw = Ok (h0, w0) ->
  In k w /\ ~ In k w0 /\ forall n, snd (read cst h n) = snd (read cst h0 n).
Proof.
  intros cst d1 d2 k p kw h w h0 w0 DK DD IK N N0. unfold new_chd in N, N0. cbv zeta in N, N0.
  set (kw2 := dpop "chirp_slope_ku_chd" (dpop "wv_length_ku_chd" kw)) in *. assert (D2 : is_dict kw2) by (unfold kw2; do 2 apply is_dict_dpop; exact DK).
  destruct (load chd_class (Some (JObj (d1 ++ (k, p) :: d2))) kw2) as [[d w']|e] eqn:L; [|discriminate]. injection N as <- <-.
  destruct (load chd_class (Some (JObj (d1 ++ d2))) kw2) as [[d0 w0']|e] eqn:L0; [|discriminate]. injection N0 as <- <-.
  assert (DD0 : is_dict (d1 ++ d2)) by (unfold is_dict, keys in *; rewrite map_app in *; cbn [map fst] in DD; apply NoDup_remove_1 in DD; exact DD).
  assert (NK : ~ In k (keys (d1 ++ d2))) by (unfold is_dict, keys in *; rewrite map_app in *; cbn [map fst] in DD; apply NoDup_remove_2 in DD; exact DD).
  destruct (C41_values _ _ _ _ _ DD D2 L) as (V & _ & W). destruct (C41_values _ _ _ _ _ DD0 D2 L0) as (V0 & _ & W0).
  assert (DE : declares chd_class k = false) by (destruct IK as [<-|[<-|[]]]; vm_compute; reflexivity).
  assert (MK : (k =? metainf) = false) by (destruct IK as [<-|[<-|[]]]; reflexivity).
  split; [|split].
  - rewrite W. apply filter_In. split; [unfold keys; rewrite map_app; apply in_or_app; right; now left|]. rewrite DE, MK. reflexivity.
  - rewrite W0. intros I. apply filter_In in I as (I & _). exact (NK I).
  - assert (G : forall x, declares chd_class x = true -> getitem chd_class d x = getitem chd_class d0 x).
    { intros x DX. rewrite V, V0, DX. destruct (dget x kw2); [reflexivity|]. assert (VI : value_in (d1 ++ (k, p) :: d2) x = value_in (d1 ++ d2) x); [|rewrite VI; reflexivity].
      assert (XK : x <> k) by (intros ->; congruence). unfold value_in. destruct (x =? metainf); [reflexivity|]. 
      assert (GG : forall l, dget x (l ++ (k, p) :: d2) = dget x (l ++ d2)).
      { induction l as [|[y v] l IHl]; cbn [app dget]; [rewrite (proj2 (String.eqb_neq _ _) XK); reflexivity|rewrite IHl; reflexivity]. }
      rewrite GG. reflexivity. }
    assert (E : forall x, declares chd_class x = true -> number chd_class d x = number chd_class d0 x).
    { intros x DX. specialize (G x DX). unfold getitem in G. rewrite DX in G. unfold number, compute, retrieve, float_param, mk_param. cbn [p_name o_class o_data]. rewrite DX.
      destruct (dget x d), (dget x d0); try discriminate; [injection G as ->|]; reflexivity. }
    assert (F : forall a b n, fresh_value cst (mk_chd d a b) n = fresh_value cst (mk_chd d0 a b) n).
    { intros a b n. unfold fresh_value, param. cbn [h_data]. destruct n; rewrite ?E by decl; try reflexivity. }
    intros n. unfold read. cbn [h_wv h_chirp]. rewrite !F. destruct n; try reflexivity.
    + destruct (is_null _); [destruct (fresh_value _ _ Chirp); reflexivity|reflexivity].
    + destruct (is_null _); [destruct (fresh_value _ _ Wave); reflexivity|reflexivity].
Qed.

(** * The processor *)
Variable file : string -> option json.
Variable collect : dict json -> bool.
Notation new_processor := (new_processor text file collect).
(** A processor has one and a half burst intervals as its threshold for gaps, and the
    data of the three files as they load; without a name, one of the files or the path
    there is none. *)
Theorem C142_processor : forall name cnf cst chd out pr, new_processor name cnf cst chd out = Ok pr ->
  exists n f1 f2 f3 o j1 j2 j3 w1 w2 w3 b h, name = Some n /\ n <> "" /\ cnf = Some f1 /\ cst = Some f2 /\ chd = Some f3 /\ out = Some o /\
    file f1 = Some j1 /\ file f2 = Some j2 /\ file f3 = Some j3 /\
    load cnf_class (Some j1) [] = Ok (pr_cnf pr, w1) /\ load cst_class (Some j2) [] = Ok (pr_cst pr, w2) /\ new_chd (Some j3) [] = Ok (h, w3) /\
    snd (read (pr_cst pr) h Bri) = Ok (JNum b) /\ pr_gap pr == (3 # 2) * b /\
    (forall n, snd (read (pr_cst pr) (pr_chd pr) n) = snd (read (pr_cst pr) h n)) /\
    forall q, has (h_data h) "brf_sar_chd" q -> pr_gap pr * q == 3 # 2.
Proof.
  intros name cnf cst chd out pr N. unfold new_processor in N.
  destruct name as [[|c n]|]; try discriminate. destruct cnf as [[|c1 f1]|]; try discriminate. destruct cst as [[|c2 f2]|]; try discriminate.
  destruct chd as [[|c3 f3]|]; try discriminate. destruct out as [o|]; try discriminate. cbn [given andb] in N. unfold bind, opened in N.
  destruct (file (String c2 f2)) as [j2|] eqn:F2; [|discriminate]. destruct (load cst_class (Some j2) []) as [[dc w2]|e] eqn:L2; [|discriminate]. cbn [conf] in N.
  destruct (file (String c3 f3)) as [j3|] eqn:F3; [|discriminate]. destruct (new_chd (Some j3) []) as [[h w3]|e] eqn:L3; [|discriminate]. cbn [conf] in N.
  destruct (file (String c1 f1)) as [j1|] eqn:F1; [|discriminate]. destruct (load cnf_class (Some j1) []) as [[df w1]|e] eqn:L1; [|discriminate]. cbn [conf fst] in N.
  destruct (collect df); [|discriminate]. pose proof (read_step dc h Bri) as RS.
  destruct (read dc h Bri) as [h1 [v|e]] eqn:R; [|discriminate]. destruct v as [|?|b|?|?|?]; try discriminate. injection N as <-. cbn [pr_cst pr_cnf pr_chd pr_gap fst] in *.
  exists (String c n), (String c1 f1), (String c2 f2), (String c3 f3), o, j1, j2, j3, w1, w2, w3, b, h.
  do 8 (split; [try reflexivity; try discriminate; assumption|]). split; [exact F3|]. split; [exact L1|]. split; [exact L2|]. split; [exact L3|].
  split; [rewrite R; reflexivity|]. split; [ring|]. split; [exact RS|].
  intros q Hq. cbn in R. assert (E : fresh_value dc h Bri = Ok (JNum b)) by (injection R as _ R; exact R).
  unfold fresh_value, param in E. rewrite (number_has _ _ _ q) in E by (exact Hq || decl). cbn [bind] in E. unfold over in E.
  destruct (Qeq_bool q 0) eqn:Z; [discriminate|]. cbn [num_res] in E. injection E as <-. field. intros X. apply Qeq_bool_neq in Z. contradiction.
Qed.
Theorem C142_refused : forall name cnf cst chd out,
  In (Some "") [name; cnf; cst; chd] \/ In None [name; cnf; cst; chd; out] -> new_processor name cnf cst chd out = Err DValue.
Proof.
  intros name cnf cst chd out H. unfold new_processor. destruct (_ && _)%bool eqn:E; [|reflexivity]. exfalso.
  rewrite !andb_true_iff in E. destruct E as ((((E1 & E2) & E3) & E4) & E5).
  destruct H as [[H|[H|[H|[H|[]]]]]|[H|[H|[H|[H|[H|[]]]]]]]; try rewrite H in *; discriminate.
Qed.
End Values.
Print Assumptions C142_values.
Print Assumptions C142_errors.
Print Assumptions C142_kept.
Print Assumptions C142_given.
Print Assumptions C142_in_file.
Print Assumptions C142_processor.
Print Assumptions C142_refused.

(** Non-vacuity: the shipped files. *)
Example C142_example : exists h d, new_chd (Some (JObj chd_default)) [] = Ok (h, []) /\ load cst_class (Some (JObj cst_default)) [] = Ok (d, []) /\
  (forall n, sound (fun _ => None) d (h_data h) n) /\ h_wv h = JNull /\ h_chirp h = JNull /\
  map (fun n => match snd (read (fun _ => None) d h n) with Ok (JNum q) => Some (Qred q) | _ => None end) [Pri; Bri; Chirp; Wave; T0] =
    map Some [1000 # 17825311; 100000 # 7853069; 50000000000000 # 7; 149896229 # 6787500000; 1 # 320000000] /\
  (exists pr, new_processor (fun _ => None) (fun f => if f =? "cnf" then Some (JObj cnf_default) else if f =? "cst" then Some (JObj cst_default) else Some (JObj chd_default))
     (fun _ => true) (Some "run") (Some "cnf") (Some "cst") (Some "chd") (Some ".") = Ok pr /\ Qred (pr_gap pr) = 150000 # 7853069) /\
  snd (read (fun _ => None) d (mk_chd (dset "prf_sar_chd" (JNum 0) (h_data h)) JNull JNull) Pri) = Err DZero /\
  (exists h' w, new_chd (Some (JObj chd_default)) [("wv_length_ku_chd", JNum 5)] = Ok (h', w) /\ snd (read (fun _ => None) d h' Wave) = Ok (JNum 5)).
Proof.
  destruct (new_chd (Some (JObj chd_default)) []) as [[h w]|] eqn:E; [|vm_compute in E; discriminate].
  destruct (load cst_class (Some (JObj cst_default)) []) as [[d w']|] eqn:E'; [|vm_compute in E'; discriminate].
  vm_compute in E, E'. injection E as <- <-. injection E' as <- <-. do 2 eexists. split; [reflexivity|]. split; [reflexivity|].
  split; [|split; [reflexivity|split; [reflexivity|split; [vm_compute; reflexivity|split; [|split]]]]].
  - intros n x I. destruct n; cbn [order] in I; repeat (destruct I as [<-|I]; [eexists; split; [eexists; split; [vm_compute; reflexivity|reflexivity]|intros _ Z; discriminate Z]|]); destruct I.
  - eexists. split; vm_compute; reflexivity.
  - vm_compute. reflexivity.
  - do 2 eexists. split; vm_compute; reflexivity.
Qed.
