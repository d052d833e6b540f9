(** C146: the text about a workspace. *)
From Coq Require Import String Ascii List NArith Bool Lia DecimalString Decimal.
From Verif Require Import Common FigModel InfoModel InfoSpec.
Import ListNotations.
Local Open Scope string_scope.
Local Open Scope list_scope.

(** * Lines *)
Fixpoint cut (s : string) : list string :=
  match s with
  | "" => [""]
  | String c r => if Ascii.eqb c newline then "" :: cut r else match cut r with h :: t => String c h :: t | [] => [] end
  end.
Lemma cut_app : forall s r, one_line s -> cut (s ++ String newline r) = s :: cut r.
Proof.
  induction s as [|c s IH]; intros r H; cbn [append cut].
  - rewrite Ascii.eqb_refl. reflexivity.
  - destruct H as (H1 & H2). destruct (Ascii.eqb_spec c newline); [contradiction|]. now rewrite IH.
Qed.
Lemma cut_one : forall s, one_line s -> cut s = [s].
Proof.
  induction s as [|c s IH]; intros H; cbn [cut]; [reflexivity|]. destruct H as (H1 & H2). destruct (Ascii.eqb_spec c newline); [contradiction|]. now rewrite IH.
Qed.
Lemma cut_join : forall l, l <> [] -> Forall one_line l -> cut (join_lines l) = l.
Proof.
  induction l as [|s l IH]; intros N F; [now elim N|]. inversion_clear F. destruct l as [|t l].
  - cbn [join_lines]. now apply cut_one.
  - change (join_lines (s :: t :: l)) with (s ++ String newline (join_lines (t :: l)))%string. rewrite cut_app by assumption. now rewrite IH.
Qed.
Lemma one_app : forall a b, one_line a -> one_line b -> one_line (a ++ b).
Proof. induction a as [|c a IH]; intros b A B; [exact B|]. destruct A. cbn. split; [assumption|now apply IH]. Qed.
Lemma one_decimal : forall n, one_line (decimal n).
Proof.
  intros n. unfold decimal. assert (H : forall u, one_line (NilEmpty.string_of_uint u)).
  { induction u; cbn [NilEmpty.string_of_uint]; [exact I|..]; (split; [intros E; discriminate E|exact IHu]). }
  unfold NilZero.string_of_uint. destruct (N.to_uint n); try exact (H _). split; [intros E; discriminate E|exact I].
Qed.
Lemma one_join : forall a b, one_line a -> one_line b -> one_line (os_join a b).
Proof.
  intros a b A B. unfold os_join. destruct b as [|c b].
  - destruct (_ || _); [exact A|]. apply one_app; [exact A|]. split; [intros E; discriminate E|exact I].
  - destruct (Ascii.eqb c _); [exact B|]. destruct (_ || _); [now apply one_app|]. apply one_app; [exact A|]. split; [intros E; discriminate E|exact B].
Qed.
Lemma plain_text : forall s, (forall c, In c (list_ascii_of_string s) -> c <> newline) -> one_line s.
Proof. induction s as [|c s IH]; intros H; [exact I|]. split; [apply H; now left|]. apply IH. intros x X. apply H. now right. Qed.
Ltac known := apply plain_text; cbn; intros ? ?; repeat match goal with H : _ \/ _ |- _ => destruct H as [<-|H] | H : False |- _ => destruct H end; discriminate.
Lemma one_file : forall p n, one_line p -> one_line (file_line p n).
Proof.
  intros p n P. unfold file_line. repeat apply one_app; [known|exact P|known|known|apply one_decimal|known].
Qed.
Lemma files_in : forall d dir l t, file_lines d dir l = Some t -> forall y, In y t -> exists x n, In x l /\ d_size d (os_join dir x) = Some n /\ y = file_line (os_join dir x) n.
Proof.
  intros d dir. induction l as [|x l IH]; intros t H y Y; cbn [file_lines] in H; [injection H as <-; destruct Y|]. cbv zeta in H.
  destruct (d_size d (os_join dir x)) as [n|] eqn:S; [|discriminate]. destruct (file_lines d dir l) as [t'|]; [|discriminate]. injection H as <-. destruct Y as [<-|Y].
  - exists x, n. cbn. auto.
  - destruct (IH t' eq_refl y Y) as (x' & n' & I & R). exists x', n'. cbn. auto.
Qed.
Lemma marked_in : forall c l none y, In y (marked c l none) -> y = none \/ exists x, In x l /\ (y = (" *" ++ x)%string \/ y = ("  " ++ x)%string).
Proof.
  intros c l none y H. destruct l as [|a l]; [destruct H as [<-|[]]; now left|]. right. apply in_map_iff in H as (x & E & I). exists x. split; [exact I|].
  destruct (x =? c)%string; auto.
Qed.
Lemma marked_eq : forall c c' l l' none, (forall r, none <> String " " r) -> marked c l none = marked c' l' none -> l = l' /\ same_marks c c' l.
Proof.
  intros c c' l l' none NN H.
  set (f := fun x => if (x =? c)%string then (" *" ++ x)%string else ("  " ++ x)%string). set (g := fun x => if (x =? c')%string then (" *" ++ x)%string else ("  " ++ x)%string).
  assert (FS : forall x, exists r, f x = String " " r) by (intros x; unfold f; destruct (x =? c)%string; eexists; reflexivity).
  assert (GS : forall x, exists r, g x = String " " r) by (intros x; unfold g; destruct (x =? c')%string; eexists; reflexivity).
  assert (M : map f l = map g l').
  { destruct l as [|a l], l' as [|b l']; [reflexivity| | |exact H]; exfalso.
    - change (marked c' (b :: l') none) with (map g (b :: l')) in H. cbn [marked map] in H. injection H as H _. destruct (GS b) as (r & E). rewrite E in H. exact (NN r H).
    - change (marked c (a :: l) none) with (map f (a :: l)) in H. cbn [marked map] in H. injection H as H _. destruct (FS a) as (r & E). rewrite E in H. exact (NN r (eq_sym H)). }
  clear H NN. revert l' M. induction l as [|a l IH]; intros [|b l'] M; try discriminate; [split; [reflexivity|intros x []]|].
  cbn [map] in M. assert (M1 : f a = g b) by congruence. assert (M2 : map f l = map g l') by congruence. destruct (IH l' M2) as (-> & SM).
  assert (E : a = b /\ (a = c <-> a = c')).
  { unfold f, g in M1. destruct (String.eqb_spec a c), (String.eqb_spec b c'); cbn in M1; injection M1 as M1; subst; split; try reflexivity; try tauto; discriminate. }
  destruct E as (<- & E). split; [reflexivity|]. intros x [<-|I]; [exact E|exact (SM x I)].
Qed.
Lemma first_blank : forall (A A' R R' : list string), ~ In "" A -> ~ In "" A' -> A ++ "" :: R = A' ++ "" :: R' -> A = A' /\ R = R'.
Proof.
  induction A as [|a A IH]; intros [|a' A'] R R' N N' H; cbn [app] in H.
  - split; [reflexivity|]. now injection H.
  - elim N'. left. injection H as H _. now symmetry.
  - elim N. left. injection H as H _. exact H.
  - injection H as EA E. destruct (IH A' R R') as (E1 & E2); [intros I; apply N; now right|intros I; apply N'; now right|exact E|]. split; congruence.
Qed.

Lemma input_lines_in : forall d i a, input_lines d i = Some a -> forall y, In y a -> y = "(no inputs yet)" \/
  exists dir l x n, d_list d dir = Some l /\ In x l /\ dir = os_join (i_dir i) "inputs" /\ y = file_line (os_join dir x) n.
Proof.
  intros d i a H y Y. unfold input_lines in H. cbv zeta in H. destruct (d_list d _) as [l|] eqn:D; [|injection H as <-; destruct Y as [<-|[]]; now left]. right.
  destruct (files_in _ _ _ _ H y Y) as (x & n & I & _ & E). exists (os_join (i_dir i) "inputs"), l, x, n. auto.
Qed.
Lemma output_lines_in : forall d i a, output_lines d i = Some a -> forall y, In y a -> (i_config i = "" /\ y = "(no outputs yet)") \/
  exists dir l x n, d_list d dir = Some l /\ In x l /\ dir = os_join (os_join (os_join (i_dir i) "configs") (i_config i)) "outputs" /\ y = file_line (os_join dir x) n.
Proof.
  intros d i a H y Y. unfold output_lines in H. cbv zeta in H. destruct (String.eqb_spec (i_config i) ""); [injection H as <-; destruct Y as [<-|[]]; left; auto|]. right.
  destruct (d_list d _) as [l|] eqn:D; [|injection H as <-; destruct Y].
  destruct (files_in _ _ _ _ H y Y) as (x & nn & I & _ & E). eexists _, l, x, nn. split; [exact D|]. auto.
Qed.
Lemma lines_neat : forall d i l, neat d i -> info_lines d i = Some l -> Forall one_line l.
Proof.
  intros d i l (N1 & N2 & N3 & N4) H. unfold info_lines in H. destruct (input_lines d i) as [a|] eqn:A; [|discriminate]. destruct (output_lines d i) as [b|] eqn:B; [|discriminate]. injection H as <-.
  assert (MK : forall c l none, (forall x, In x l -> one_line x) -> one_line none -> Forall one_line (marked c l none)).
  { intros c l none HL HN. apply Forall_forall. intros y Y. destruct (marked_in _ _ _ _ Y) as [->|(x & I & [->| ->])]; [exact HN| |]; cbn; repeat split; try (intros E; discriminate E); apply HL, I. }
  repeat first [apply Forall_nil|apply Forall_cons; [known|]|apply Forall_app; split].
  - apply MK; [intros x I; apply N3; auto|known].
  - apply Forall_forall. intros y Y. destruct (input_lines_in _ _ _ A y Y) as [->|(dir & l & x & n & D & I & -> & ->)]; [known|].
    apply one_file, one_join; [apply one_join; [exact N1|known]|exact (N4 _ _ _ D I)].
  - apply MK; [intros x I; apply N3; auto|known].
  - apply Forall_forall. intros y Y. destruct (output_lines_in _ _ _ B y Y) as [(_ & ->)|(dir & l & x & n & D & I & -> & ->)]; [known|].
    apply one_file, one_join; [|exact (N4 _ _ _ D I)]. repeat (apply one_join; [|first [exact N2|known]]). exact N1.
Qed.

(** The text tells the lists of workspaces and configurations, which of them are the
    current ones, and the lines about inputs and outputs. *)
Theorem C146_told : forall d i d' i' s, neat d i -> neat d' i' -> info_string d i = Some s -> info_string d' i' = Some s ->
  i_spaces i' = i_spaces i /\ same_marks (i_current i) (i_current i') (i_spaces i) /\
  i_configs i' = i_configs i /\ same_marks (i_config i) (i_config i') (i_configs i) /\
  input_lines d' i' = input_lines d i /\ output_lines d' i' = output_lines d i.
Proof.
  intros d i d' i' s N N' H H'. unfold info_string in H, H'. destruct (info_lines d i) as [l|] eqn:L; [|discriminate]. destruct (info_lines d' i') as [l'|] eqn:L'; [|discriminate].
  cbn [option_map] in H, H'. assert (E : join_lines l = join_lines l') by congruence. clear H H' s.
  pose proof (lines_neat _ _ _ N L) as F. pose proof (lines_neat _ _ _ N' L') as F'.
  assert (l = l').
  { rewrite <- (cut_join l), <- (cut_join l'), E; try assumption; [reflexivity| |];
      intros ->; [unfold info_lines in L'; destruct (input_lines d' i'), (output_lines d' i')|unfold info_lines in L; destruct (input_lines d i), (output_lines d i)]; discriminate. }
  subst l'. clear E F F'. unfold info_lines in L, L'.
  destruct (input_lines d i) as [a|] eqn:A; [|discriminate]. destruct (output_lines d i) as [b|] eqn:B; [|discriminate].
  destruct (input_lines d' i') as [a'|] eqn:A'; [|discriminate]. destruct (output_lines d' i') as [b'|] eqn:B'; [|discriminate].
  rewrite <- L in L'. clear L. apply (f_equal (fun o => match o with Some x => x | None => [] end)) in L'. cbn [app] in L'.
  assert (NM : forall c l none, none <> "" -> ~ In "" (marked c l none)).
  { intros c l0 none HN I. destruct (marked_in _ _ _ _ I) as [E|(x & _ & [E|E])]; [congruence|discriminate|discriminate]. }
  assert (NI : forall d i a, input_lines d i = Some a -> ~ In "" a).
  { intros d0 i0 a0 HA I. destruct (input_lines_in _ _ _ HA _ I) as [E|(dir & l0 & x & n & _ & _ & _ & E)]; discriminate. }
  assert (NO : forall d i a, output_lines d i = Some a -> ~ In "" a).
  { intros d0 i0 a0 HA I. destruct (output_lines_in _ _ _ HA _ I) as [(_ & E)|(dir & l0 & x & n & _ & _ & _ & E)]; discriminate. }
  assert (L1 : marked (i_current i') (i_spaces i') "(no workspaces yet)" ++ "" :: "Inputs:" :: a' ++ "" :: "DDP configurations:" :: marked (i_config i') (i_configs i') "(no DDP configurations yet)" ++ "" :: "Outputs:" :: b' ++ [""]
    = marked (i_current i) (i_spaces i) "(no workspaces yet)" ++ "" :: "Inputs:" :: a ++ "" :: "DDP configurations:" :: marked (i_config i) (i_configs i) "(no DDP configurations yet)" ++ "" :: "Outputs:" :: b ++ [""]) by exact (f_equal (@tl string) L').
  clear L'. apply first_blank in L1 as (M1 & L1); try (apply NM; discriminate).
  assert (L2 : a' ++ "" :: "DDP configurations:" :: marked (i_config i') (i_configs i') "(no DDP configurations yet)" ++ "" :: "Outputs:" :: b' ++ [""]
    = a ++ "" :: "DDP configurations:" :: marked (i_config i) (i_configs i) "(no DDP configurations yet)" ++ "" :: "Outputs:" :: b ++ [""]) by exact (f_equal (@tl string) L1).
  apply first_blank in L2 as (M2 & L2); [|exact (NI _ _ _ A')|exact (NI _ _ _ A)].
  assert (L3 : marked (i_config i') (i_configs i') "(no DDP configurations yet)" ++ "" :: "Outputs:" :: b' ++ [""] = marked (i_config i) (i_configs i) "(no DDP configurations yet)" ++ "" :: "Outputs:" :: b ++ [""]) by exact (f_equal (@tl string) L2).
  apply first_blank in L3 as (M3 & L3); try (apply NM; discriminate).
  assert (L4 : b' ++ "" :: [] = b ++ "" :: []) by exact (f_equal (@tl string) L3). apply first_blank in L4 as (M4 & _); [|exact (NO _ _ _ B')|exact (NO _ _ _ B)].
  apply eq_sym, marked_eq in M1 as (E1 & S1); [|intros r; discriminate]. apply eq_sym, marked_eq in M3 as (E3 & S3); [|intros r; discriminate]. subst a' b'. auto 10.
Qed.
Print Assumptions C146_told.

(** A directory of inputs is listed file by file, with sizes rounded down to MiB; so
    are the outputs of the current configuration. *)
Lemma files_hold : forall d dir names t, d_list d dir = Some names -> file_lines d dir names = Some t -> exists l, holds d dir l /\ t = map shown l.
Proof.
  intros d dir names t D H.
  assert (G : forall names t, file_lines d dir names = Some t -> exists l, length l = length names /\ t = map shown l /\
    forall k p m, nth_error l k = Some (p, m) -> exists x n, nth_error names k = Some x /\ p = os_join dir x /\ d_size d p = Some n /\ (m * 2 ^ 20 <= n < (m + 1) * 2 ^ 20)%N).
  { clear. induction names as [|x names IH]; intros t H; cbn [file_lines] in H.
    - injection H as <-. exists []. split; [reflexivity|]. split; [reflexivity|]. intros [|k] p m; discriminate.
    - cbv zeta in H. destruct (d_size d (os_join dir x)) as [n|] eqn:S; [|discriminate]. destruct (file_lines d dir names) as [t'|]; [|discriminate]. injection H as <-.
      destruct (IH t' eq_refl) as (l & L1 & L2 & L3). exists ((os_join dir x, N.shiftr n 20) :: l). split; [cbn; now rewrite L1|]. split; [cbn [map]; now rewrite L2|].
      intros [|k] p m; cbn [nth_error]; intros E; [|exact (L3 k p m E)]. assert (E1 : p = os_join dir x) by congruence. assert (E2 : m = N.shiftr n 20) by congruence. clear E. subst p m. exists x, n. split; [reflexivity|]. split; [reflexivity|]. split; [exact S|].
      rewrite N.shiftr_div_pow2. pose proof (N.div_mod n (2 ^ 20) ltac:(discriminate)). pose proof (N.mod_lt n (2 ^ 20) ltac:(discriminate)). remember (n / 2 ^ 20)%N as q eqn:Q. remember (n mod 2 ^ 20)%N as r eqn:R. clear Q R. change (2 ^ 20)%N with 1048576%N in *. lia. }
  destruct (G names t H) as (l & L1 & L2 & L3). exists l. split; [|exact L2]. exists names. auto.
Qed.
Theorem C146_files : forall d i s, info_string d i = Some s ->
  (d_list d (os_join (i_dir i) "inputs") = None /\ input_lines d i = Some ["(no inputs yet)"] \/
   exists l, holds d (os_join (i_dir i) "inputs") l /\ input_lines d i = Some (map shown l)) /\
  (i_config i = "" /\ output_lines d i = Some ["(no outputs yet)"] \/
   i_config i <> "" /\ let dir := os_join (os_join (os_join (i_dir i) "configs") (i_config i)) "outputs" in
     (d_list d dir = None /\ output_lines d i = Some [] \/ exists l, holds d dir l /\ output_lines d i = Some (map shown l))).
Proof.
  intros d i s H. unfold info_string, info_lines in H. destruct (input_lines d i) as [a|] eqn:A; [|discriminate]. destruct (output_lines d i) as [b|] eqn:B; [|discriminate]. clear H. split.
  - unfold input_lines in A. cbv zeta in A. destruct (d_list d _) as [names|] eqn:D; [|left; auto]. right. destruct (files_hold _ _ _ _ D A) as (l & L & ->). eauto.
  - unfold output_lines in B. cbv zeta in B. destruct (String.eqb_spec (i_config i) ""); [left; split; congruence|]. right. split; [assumption|]. cbv zeta.
    destruct (d_list d _) as [names|] eqn:D; [|left; split; congruence]. right. destruct (files_hold _ _ _ _ D B) as (l & L & ->). eauto.
Qed.
Print Assumptions C146_files.

(** There is no text exactly when a file listed has no size. *)
Lemma files_none : forall d dir l, file_lines d dir l = None <-> exists x, In x l /\ d_size d (os_join dir x) = None.
Proof.
  intros d dir. induction l as [|x l IH]; cbn [file_lines]; [split; [discriminate|intros (x & [] & _)]|]. cbv zeta. destruct (d_size d (os_join dir x)) as [n|] eqn:S.
  - destruct (file_lines d dir l) as [t|] eqn:F.
    + split; [discriminate|]. intros (y & [<-|I] & E); [congruence|]. exfalso. assert (Some t = None) by (apply IH; eauto). discriminate.
    + split; [|reflexivity]. intros _. destruct (proj1 IH eq_refl) as (y & I & E). exists y. cbn. auto.
  - split; [|reflexivity]. intros _. exists x. cbn. auto.
Qed.
Theorem C146_failed : forall d i, info_string d i = None <->
  exists dir l x, d_list d dir = Some l /\ In x l /\ d_size d (os_join dir x) = None /\
    (dir = os_join (i_dir i) "inputs" \/ i_config i <> "" /\ dir = os_join (os_join (os_join (i_dir i) "configs") (i_config i)) "outputs").
Proof.
  intros d i. unfold info_string, info_lines.
  assert (IN : input_lines d i = None <-> exists l x, d_list d (os_join (i_dir i) "inputs") = Some l /\ In x l /\ d_size d (os_join (os_join (i_dir i) "inputs") x) = None).
  { unfold input_lines. cbv zeta. destruct (d_list d _) as [l|].
    - rewrite files_none. split; [intros (x & I & E); eauto|intros (l' & x & E & I & S); injection E as <-; eauto].
    - split; [discriminate|]. intros (l' & x & E & _). discriminate. }
  set (dir := os_join (os_join (os_join (i_dir i) "configs") (i_config i)) "outputs").
  assert (OU : output_lines d i = None <-> i_config i <> "" /\ exists l x, d_list d dir = Some l /\ In x l /\ d_size d (os_join dir x) = None).
  { unfold output_lines. cbv zeta. fold dir. destruct (String.eqb_spec (i_config i) "") as [E|E]; [split; [discriminate|intros (C & _); contradiction]|].
    destruct (d_list d dir) as [l|].
    - rewrite files_none. split; [intros (x & I & S); eauto 6|intros (_ & l' & x & E' & I & S); injection E' as <-; eauto].
    - split; [discriminate|]. intros (_ & l' & x & E' & _). discriminate. }
  split.
  - destruct (input_lines d i) as [li|]; [destruct (output_lines d i) as [lo|]|]; cbn; intros H; try discriminate.
    + destruct (proj1 OU eq_refl) as (C & l & x & E & I & S). exists dir, l, x. auto 6.
    + destruct (proj1 IN eq_refl) as (l & x & E & I & S). exists (os_join (i_dir i) "inputs"), l, x. auto 6.
  - intros (dir' & l & x & E & I & S & [->|(C & ->)]).
    + rewrite (proj2 IN); [reflexivity|eauto].
    + fold dir in E, S. rewrite (proj2 OU); [destruct (input_lines d i); reflexivity|eauto 6].
Qed.
Print Assumptions C146_failed.

(** "(no outputs yet)" is written only without a current configuration: with one that
    has no outputs, nothing is said, and likewise for an empty directory of inputs. *)
Theorem C146_silent_refuted : exists d i s l, neat d i /\ (forall dir names, d_list d dir = Some names -> names = []) /\
  info_lines d i = Some l /\ info_string d i = Some s /\ ~ In "(no outputs yet)" l /\ ~ In "(no inputs yet)" l.
Proof.
  exists (mk_disk (fun p => if (p =? "w/inputs")%string then Some [] else None) (fun _ => None)), (mk_info "w" "a" ["a"] "c" ["c"]).
  eexists. eexists. split; [|split; [|split; [vm_compute; reflexivity|split; [reflexivity|split; vm_compute; intuition discriminate]]]].
  - split; [known|]. split; [known|]. split; [intros x [[<-|[]]|[<-|[]]]; known|]. intros p l x. cbn. destruct (p =? "w/inputs")%string; intros E; [injection E as <-; intros []|discriminate].
  - intros dir names. cbn. destruct (dir =? "w/inputs")%string; congruence.
Qed.
Print Assumptions C146_silent_refuted.

Example C146_example :
  let d := mk_disk (fun p => if (p =? "w/inputs")%string then Some ["in.nc"] else if (p =? "w/configs/c/outputs")%string then Some ["out.nc"] else None)
                   (fun p => if (p =? "w/inputs/in.nc")%string then Some 3145727%N else Some 12%N) in
  info_lines d (mk_info "w" "b" ["a"; "b"] "c" ["c"]) =
    Some ["Workspaces:"; "  a"; " *b"; ""; "Inputs:"; ("  w/inputs/in.nc" ++ tab ++ tab ++ "2 MiB")%string; ""; "DDP configurations:"; " *c"; "";
          "Outputs:"; ("  w/configs/c/outputs/out.nc" ++ tab ++ tab ++ "0 MiB")%string; ""] /\
  info_lines (mk_disk (fun _ => None) (fun _ => None)) (mk_info "w" "" [] "" []) =
    Some ["Workspaces:"; "(no workspaces yet)"; ""; "Inputs:"; "(no inputs yet)"; ""; "DDP configurations:"; "(no DDP configurations yet)"; ""; "Outputs:"; "(no outputs yet)"; ""] /\
  info_string (mk_disk (fun _ => Some ["x"]) (fun _ => None)) (mk_info "w" "" [] "" []) = None.
Proof. vm_compute. repeat split. Qed.
