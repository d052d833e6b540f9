(** C143: what the products say of themselves. *)
From Coq Require Import String List ZArith QArith Bool Ascii Lia.
From Verif Require Import Common Dict ConfModel ConfData IsoModel NoteModel NoteProofs DerModel DerSpec DerProps GlobModel GlobSpec.
Import ListNotations.
Local Open Scope string_scope.
Local Open Scope list_scope.
Local Open Scope nat_scope.

(** * Names *)
Lemma prefix_app : forall t s, prefix t s = true -> exists b, s = (t ++ b)%string.
Proof.
  induction t as [|c t IH]; intros s H; [now exists s|]. destruct s as [|d s]; [discriminate|]. cbn in H. destruct (ascii_dec c d) as [->|]; [|discriminate].
  destruct (IH s H) as (b & ->). now exists b.
Qed.
Lemma app_prefix : forall t b, prefix t (t ++ b) = true.
Proof. induction t as [|c t IH]; intros b; [now destruct b|]. cbn. destruct (ascii_dec c c); [apply IH|contradiction]. Qed.
Lemma length_app : forall a b, String.length (a ++ b) = String.length a + String.length b.
Proof. induction a as [|c a IH]; intros b; cbn; [reflexivity|]. now rewrite IH. Qed.
Lemma replace_length : forall old new, String.length new = String.length old -> old <> "" -> forall s k, k <= String.length s ->
  String.length (replace_from old new k s) + k = String.length s.
Proof.
  intros old new L N. induction s as [|c s IH]; intros k K; cbn [String.length] in *; [cbn; lia|]. cbn [replace_from]. destruct k as [|k].
  - destruct (prefix old (String c s)) eqn:P.
    + apply prefix_app in P as (b & E). assert (LL : String.length (String c s) = String.length old + String.length b) by (rewrite E; apply length_app).
      cbn [String.length] in LL. rewrite length_app. destruct old as [|o old]; [now elim N|]. cbn [String.length] in *.
      replace (S (String.length old) - 1) with (String.length old) by lia. specialize (IH (String.length old) ltac:(lia)). lia.
    + cbn [String.length]. specialize (IH 0 ltac:(lia)). lia.
  - specialize (IH k ltac:(lia)). lia.
Qed.
Lemma app_inj_length : forall a b x y, String.length a = String.length b -> (a ++ x)%string = (b ++ y)%string -> a = b.
Proof.
  induction a as [|c a IH]; intros [|d b] x y L E; try discriminate; [reflexivity|]. cbn in L, E. injection E as -> E. f_equal. apply (IH _ x y); [lia|exact E].
Qed.
Lemma occurs_cons : forall t c s, occurs t s -> occurs t (String c s).
Proof. intros t c s (a & b & ->). now exists (String c a), b. Qed.
Lemma replace_none : forall old new s, ~ occurs old s -> replace old new s = s.
Proof.
  intros old new. unfold replace. induction s as [|c s IH]; intros H; [reflexivity|]. cbn [replace_from]. destruct (prefix old (String c s)) eqn:P.
  - elim H. apply prefix_app in P as (b & E). exists "", b. exact E.
  - rewrite IH; [reflexivity|]. intros O. apply H. apply occurs_cons. exact O.
Qed.
Lemma replace_differ : forall old n1 n2 s, String.length n1 = String.length n2 -> n1 <> n2 -> old <> "" -> occurs old s -> replace old n1 s <> replace old n2 s.
Proof.
  intros old n1 n2 s L N NE. unfold replace. induction s as [|c s IH]; intros O.
  - destruct O as (a & b & E). destruct a; [|discriminate]. destruct old; [contradiction|discriminate].
  - cbn [replace_from]. destruct (prefix old (String c s)) eqn:P.
    + intros E. apply N. exact (app_inj_length _ _ _ _ L E).
    + intros E. injection E as E. revert E. apply IH. destruct O as (a & b & E). destruct a as [|d a].
      * cbn in E. rewrite E, app_prefix in P. discriminate.
      * cbn in E. injection E as _ E. now exists a, b.
Qed.
(** The names of the two products are as long as that of the L1A file; they are the
    same name, that of the L1A file, exactly when it does not state its level; with the
    level stated once, it is replaced by that of the product and nothing else changes. *)
Theorem C143_names : forall s, let b := replace "_A__" "____" s in let bs := replace "_A__" "_BS_" s in
  String.length b = String.length s /\ String.length bs = String.length s /\
  (b = bs <-> ~ occurs "_A__" s) /\ (~ occurs "_A__" s -> b = s /\ bs = s) /\
  forall u v, s = (u ++ "_A__" ++ v)%string -> (forall x y, u = (x ++ y)%string -> y <> "" -> prefix "_A__" (y ++ "_A__" ++ v) = false) -> ~ occurs "_A__" v ->
    b = (u ++ "____" ++ v)%string /\ bs = (u ++ "_BS_" ++ v)%string.
Proof.
  intros s b bs. unfold b, bs.
  pose proof (replace_length "_A__" "____" eq_refl ltac:(discriminate) s 0 (Nat.le_0_l _)) as L1.
  pose proof (replace_length "_A__" "_BS_" eq_refl ltac:(discriminate) s 0 (Nat.le_0_l _)) as L2.
  split; [unfold replace; lia|]. split; [unfold replace; lia|]. split; [|split].
  - split.
    + intros E O. revert E. apply replace_differ; [reflexivity|discriminate|discriminate|exact O].
    + intros O. rewrite !replace_none by exact O. reflexivity.
  - intros O. rewrite !replace_none by exact O. now split.
  - intros u v -> U V.
    assert (R : forall new, replace "_A__" new ("_A__" ++ v) = (new ++ replace "_A__" new v)%string) by (intros new; destruct v; reflexivity).
    split; rewrite replace_skip by exact U; rewrite R, replace_none by exact V; reflexivity.
Qed.
Print Assumptions C143_names.

(** * Attributes *)
Lemma write_other : forall l f x, ~ In x (map fst l) -> a_attrs (write_globals f l) x = a_attrs f x.
Proof.
  unfold write_globals. induction l as [|[y v] l IH]; intros f x H; [reflexivity|]. cbn [map fst In] in H. cbn [fold_left fst snd]. rewrite IH by tauto.
  unfold write_global. cbn [a_attrs]. destruct (x =? y)%string eqn:E; [|reflexivity]. apply String.eqb_eq in E. subst. tauto.
Qed.
Lemma write_in : forall l f x v, NoDup (map fst l) -> In (x, v) l -> a_attrs (write_globals f l) x = Some (match v with Some v => v | None => AText "Not available" end).
Proof.
  induction l as [|[y w] l IH]; intros f x v ND H; [destruct H|]. cbn [map fst] in ND. inversion ND as [|? ? NI ND']; subst.
  change (write_globals f ((y, w) :: l)) with (write_globals (write_global f y w) l). destruct H as [E|H].
  - injection E as -> ->. rewrite write_other by exact NI. unfold write_global. cbn [a_attrs]. rewrite String.eqb_refl. destruct v; reflexivity.
  - apply IH; assumption.
Qed.
Fixpoint dup_free (l : list string) : bool := match l with [] => true | x :: r => negb (existsb (String.eqb x) r) && dup_free r end.
Lemma dup_free_ok : forall l, dup_free l = true -> NoDup l.
Proof.
  induction l as [|x l IH]; intros H; [constructor|]. cbn in H. apply andb_true_iff in H as (A & B). constructor; [|now apply IH].
  intros I. apply negb_true_iff in A. enough (existsb (String.eqb x) l = true) by congruence. apply existsb_exists. exists x. split; [exact I|apply String.eqb_refl].
Qed.
Lemma slot_new : forall attrs g x, new_globals attrs = Ok g -> In x slots -> slot g x = dget x attrs.
Proof.
  intros attrs g x N I. unfold new_globals in N. destruct (dget "self" attrs); [discriminate|].
  assert (EG : g = map (fun y => (y, dget y attrs)) slots) by congruence. rewrite EG. clear EG N. unfold slot.
  assert (G : forall l, In x l -> dget x (map (fun y => (y, dget y attrs)) l) = Some (dget x attrs)); [|rewrite G by exact I; reflexivity].
  induction l as [|y l IH]; intros H; [destruct H|]. cbn [map dget]. destruct (x =? y)%string eqn:E; [apply String.eqb_eq in E; now subst|].
  apply IH. destruct H as [->|H]; [rewrite String.eqb_refl in E; discriminate|exact H].
Qed.

Section End_of_run.
Variable text : string -> option Q.
Variable lib : string.
Variable now : Z * Z.
Notation finish := (finish text lib now).
Notation arguments := (arguments text lib).
Notation has := (DerSpec.has text).

(** What one call writes. *)
Definition says (f : out_file) (attrs : dict aval) (over : list string) (title name : string) (a b : Q) (c ft lt : list ascii) (before : out_file) : Prop :=
  (forall x, In x over \/ x = "history" -> a_attrs f x = as_in attrs x) /\
  a_attrs f "title" = Some (AText title) /\ a_attrs f "product_name" = Some (AText name) /\
  a_attrs f "semi_major_ellipsoid_axis" = Some (ANum a) /\ a_attrs f "ellipsoid_flattening" = Some (ANum b) /\ a_attrs f "netcdf_version" = Some (AText lib) /\
  a_attrs f "institution" = Some (AText "isardSAT") /\ a_attrs f "source" = Some (AText "DeDop 1.5.1.dev1") /\ a_attrs f "contact" = Some (AText "http://www.dedop.org/") /\
  a_attrs f "creation_time" = Some (AText (string_of_list_ascii c)) /\ a_attrs f "first_meas_time" = Some (AText (string_of_list_ascii ft)) /\
  a_attrs f "last_meas_time" = Some (AText (string_of_list_ascii lt)) /\
  (forall x, ~ In x over -> ~ In x stated -> x <> "history" -> a_attrs f x = a_attrs before x) /\
  a_closed f = true.
Lemma arguments_ok : forall cst title over new attrs g s a b c ft lt, new_globals attrs = Ok g -> dget "product_name" attrs = Some (AText s) ->
  has cst "semi_major_axis_cst" a -> has cst "flat_coeff_cst" b -> incl over slots -> dup_free (["title"] ++ over ++ ["semi_major_ellipsoid_axis"; "ellipsoid_flattening"; "netcdf_version"; "product_name"; "institution"; "source"; "history"; "contact"; "creation_time"; "first_meas_time"; "last_meas_time"]) = true ->
  exists l, arguments cst title over new g (c, ft, lt) = Ok l /\
    forall before, says (close (write_globals before l)) attrs over title (replace "_A__" new s) a b c ft lt before.
Proof.
  intros cst title over new attrs g s a b c ft lt N P A B SL DF. unfold GlobModel.arguments.
  rewrite (number_has text _ _ _ a) by (exact A || (vm_compute; reflexivity)). rewrite (number_has text _ _ _ b) by (exact B || (vm_compute; reflexivity)).
  assert (RN : renamed new g = Ok (AText (replace "_A__" new s))).
  { unfold renamed. rewrite (slot_new _ _ _ N) by (cbn; tauto). rewrite P. reflexivity. }
  rewrite RN. eexists. split; [reflexivity|]. intros before.
  match goal with |- says (close (write_globals _ ?l)) _ _ _ _ _ _ _ _ _ _ => set (L := l) end.
  assert (K : map fst L = ["title"] ++ over ++ ["semi_major_ellipsoid_axis"; "ellipsoid_flattening"; "netcdf_version"; "product_name"; "institution"; "source"; "history"; "contact"; "creation_time"; "first_meas_time"; "last_meas_time"]).
  { unfold L. rewrite !map_app, map_map. cbn [fst]. rewrite map_id. reflexivity. }
  assert (ND : NoDup (map fst L)) by (rewrite K; apply dup_free_ok; exact DF).
  assert (T : forall x v, In (x, v) [("title", say title); ("semi_major_ellipsoid_axis", Some (ANum a)); ("ellipsoid_flattening", Some (ANum b)); ("netcdf_version", say lib);
           ("product_name", Some (AText (replace "_A__" new s))); ("institution", say "isardSAT"); ("source", say "DeDop 1.5.1.dev1"); ("history", slot g "history");
           ("contact", say "http://www.dedop.org/"); ("creation_time", said c); ("first_meas_time", said ft); ("last_meas_time", said lt)] -> In (x, v) L).
  { intros x v I. unfold L. apply in_or_app. destruct I as [I|I]; [left; now left|]. right. apply in_or_app. right. exact I. }
  assert (W : forall x v, In (x, Some v) L -> a_attrs (write_globals before L) x = Some v) by (intros x v I; exact (write_in L before x (Some v) ND I)).
  unfold says. cbn [close a_attrs a_closed]. split; [|do 11 (split; [apply W; apply T; unfold say, said; cbn; tauto|])].
  - intros x H. unfold as_in. destruct H as [H| ->].
    + rewrite (write_in L before x (slot g x) ND).
      * rewrite (slot_new _ _ _ N) by (apply SL; exact H). destruct (dget x attrs); reflexivity.
      * unfold L. apply in_or_app. right. apply in_or_app. left. apply (in_map (fun x => (x, slot g x))). exact H.
    + rewrite (write_in L before _ (slot g "history") ND) by (apply T; cbn; tauto). rewrite (slot_new _ _ _ N) by (cbn; tauto). destruct (dget "history" attrs); reflexivity.
  - split; [|reflexivity]. intros x O S H. apply write_other. rewrite K. intros I. apply in_app_or in I as [[<-|[]]|I]; [apply S; cbn; tauto|].
    apply in_app_or in I as [I|I]; [exact (O I)|]. cbn in I, S. intuition.
Qed.

(** At the end of a run both products carry the attributes of the L1A file, "Not
    available" where it has none, its own name and times, and nothing else; both are
    closed.  The platform is passed on to the L1BS product only. *)
Theorem C143_written : forall cst attrs s a b first last c ft lt before_b before_s,
  dget "self" attrs = None -> dget "product_name" attrs = Some (AText s) -> has cst "semi_major_axis_cst" a -> has cst "flat_coeff_cst" b ->
  product_times now first last = Ok (c, ft, lt) ->
  exists fb, fst (fst (finish cst attrs first last (before_b, before_s))) = fb /\ snd (finish cst attrs first last (before_b, before_s)) = None /\
    (forall x, In x taken -> a_attrs fb x = as_in attrs x) /\
    says fb attrs over_l1b "DeDop SRAL Level 1 Measurement" (replace "_A__" "____" s) a b c ft lt before_b /\
    (before_s = None -> snd (fst (finish cst attrs first last (before_b, before_s))) = None) /\
    forall bs, before_s = Some bs -> exists fs, snd (fst (finish cst attrs first last (before_b, before_s))) = Some fs /\
      (forall x, In x ("xref_platform" :: taken) -> a_attrs fs x = as_in attrs x) /\
      says fs attrs over_l1bs "DeDop SRAL Level 1BS Measurement" (replace "_A__" "_BS_" s) a b c ft lt bs.
Proof.
  intros cst attrs s a b first last c ft lt bb bs0 NS P A B T.
  destruct (new_globals attrs) as [g|e] eqn:N; [|unfold new_globals in N; rewrite NS in N; discriminate].
  destruct (arguments_ok cst "DeDop SRAL Level 1 Measurement" over_l1b "____" attrs g s a b c ft lt N P A B ltac:(intros x I; cbn in I |- *; tauto) eq_refl) as (l1 & E1 & S1).
  destruct (arguments_ok cst "DeDop SRAL Level 1BS Measurement" over_l1bs "_BS_" attrs g s a b c ft lt N P A B ltac:(intros x I; cbn in I |- *; tauto) eq_refl) as (l2 & E2 & S2).
  assert (F : finish cst attrs first last (bb, bs0) = ((close (write_globals bb l1), option_map (fun x => close (write_globals x l2)) bs0), None)).
  { unfold GlobModel.finish. rewrite N, T, E1. cbn [fst snd]. destruct bs0; [rewrite E2|]; reflexivity. }
  rewrite F. cbn [fst snd]. eexists. split; [reflexivity|]. split; [reflexivity|].
  split; [intros x I; apply (proj1 (S1 bb)); cbn in I |- *; intuition|]. split; [exact (S1 bb)|]. split; [intros ->; reflexivity|].
  intros bs ->. eexists. split; [reflexivity|]. split; [intros x I; apply (proj1 (S2 bs)); cbn in I |- *; intuition|exact (S2 bs)].
Qed.

(** Without a product name, or with a time that has no text, the run fails after its
    last record: no attribute is written and no file is closed. *)
Theorem C143_lost : forall cst attrs first last st,
  (forall s, dget "product_name" attrs <> Some (AText s)) \/ dget "self" attrs <> None \/ (forall t, product_times now first last <> Ok t) ->
  fst (finish cst attrs first last st) = st /\ snd (finish cst attrs first last st) <> None.
Proof.
  intros cst attrs first last st H. unfold GlobModel.finish. destruct (new_globals attrs) as [g|e] eqn:N; [|split; [reflexivity|discriminate]].
  destruct (product_times now first last) as [t|e] eqn:T; [|split; [reflexivity|discriminate]].
  assert (P : forall s, dget "product_name" attrs <> Some (AText s)).
  { destruct H as [H|[H|H]]; [exact H| |now elim (H t)]. exfalso. unfold new_globals in N. destruct (dget "self" attrs); [discriminate|]. now elim H. }
  assert (R : forall new, renamed new g = Err GName).
  { intros new. unfold renamed. rewrite (slot_new _ _ _ N) by (cbn; tauto). destruct (dget "product_name" attrs) as [[s|q]|]; [now elim (P s)| |]; reflexivity. }
  assert (AR : forall title over new, exists e, arguments cst title over new g t = Err e).
  { intros title over new. unfold GlobModel.arguments. destruct t as [[c ft] lt]. destruct (number _ _ _ "semi_major_axis_cst"); [|eexists; reflexivity].
    destruct (number _ _ _ "flat_coeff_cst"); [|eexists; reflexivity]. rewrite R. eexists. reflexivity. }
  destruct (AR "DeDop SRAL Level 1 Measurement" over_l1b "____") as (e & ->). split; [reflexivity|discriminate].
Qed.
End End_of_run.
Print Assumptions C143_written.
Print Assumptions C143_lost.

(** Non-vacuity. *)
Definition shipped_cst : dict json := match load cst_class (Some (JObj cst_default)) [] with Ok (d, _) => d | Err _ => [] end.
Definition no_attrs : out_file := mk_out (fun _ => None) false.
Definition l1a_attrs : dict aval := [("product_name", AText "S3A_SR_1_SRA_A__20160415T063315"); ("mission_name", AText "Sentinel-3A"); ("xref_platform", AText "p")].
Example C143_example :
  let run a := finish (fun _ => None) "4.4" (735000, 0)%Z shipped_cst a (Fin 0) (Fin 1) (no_attrs, Some no_attrs) in
  (exists a b, DerSpec.has (fun _ => None) shipped_cst "semi_major_axis_cst" a /\ DerSpec.has (fun _ => None) shipped_cst "flat_coeff_cst" b) /\
  (exists fb fs, run l1a_attrs = ((fb, Some fs), None) /\
    a_attrs fb "product_name" = Some (AText "S3A_SR_1_SRA____20160415T063315") /\ a_attrs fs "product_name" = Some (AText "S3A_SR_1_SRA_BS_20160415T063315") /\
    a_attrs fb "xref_platform" = None /\ a_attrs fs "xref_platform" = Some (AText "p") /\ a_attrs fb "references" = Some (AText "Not available") /\
    a_attrs fb "first_meas_time" = Some (AText "2000-01-01T00:00:00+00:00") /\ a_closed fb = true) /\
  run [("mission_name", AText "Sentinel-3A")] = ((no_attrs, Some no_attrs), Some GName) /\ occurs "_A__" "S3A_SR_1_SRA_A__20160415T063315".
Proof.
  cbv zeta. split; [do 2 eexists; split; eexists; split; vm_compute; reflexivity|]. split; [|split].
  - do 2 eexists. split; [reflexivity|]. repeat split; vm_compute; reflexivity.
  - vm_compute. reflexivity.
  - now exists "S3A_SR_1_SRA", "20160415T063315".
Qed.
