(** Theorems about what "dedop run" leaves in the file system (C127). *)
From Coq Require Import Ascii String List Bool Arith Lia Sorted.
From Verif Require Import Common Dict FsModel FsProofs WsModel WsSpec WsProofs WsProps NameModel NameProofs CliModel CliSpec CliProofs
  CliProps IoSpec IoProofs MadeModel MadeSpec MadeProofs MadeMore.
Import ListNotations.
Open Scope string_scope.
Open Scope list_scope.

(** * Names *)
Lemma name_kinds : forall run f run' g, l1b_name run f <> l1bs_name run' g.
Proof.
  intros run f run' g E. unfold l1b_name, l1bs_name in E. cbn in E.
  unfold part in E. destruct (l1a_base f =? "")%string, (run =? "")%string; cbn in E; discriminate.
Qed.
Lemma l1b_inj : forall run f g, l1b_name run f = l1b_name run g -> l1a_base f = l1a_base g.
Proof. intros run f g E. unfold l1b_name in E. apply append_inj_l in E. apply (part_inj _ _ _ E). Qed.
Lemma l1bs_inj : forall run f g, l1bs_name run f = l1bs_name run g -> l1a_base f = l1a_base g.
Proof. intros run f g E. unfold l1bs_name in E. apply append_inj_l in E. apply (part_inj _ _ _ E). Qed.
Lemma app_str_assoc : forall a b c : string, ((a ++ b) ++ c = a ++ (b ++ c))%string.
Proof. induction a as [|x a IH]; intros; cbn; [reflexivity|]. rewrite IH. reflexivity. Qed.
Lemma l1b_nc : forall run f, exists b, l1b_name run f = (b ++ ".nc")%string.
Proof. intros. exists ("L1B" ++ part (l1a_base f) ++ part run)%string. unfold l1b_name. rewrite !app_str_assoc. reflexivity. Qed.
Lemma l1bs_nc : forall run f, exists b, l1bs_name run f = (b ++ ".nc")%string.
Proof. intros. exists ("L1BS" ++ part (l1a_base f) ++ part run)%string. unfold l1bs_name. rewrite !app_str_assoc. reflexivity. Qed.

Lemma tail_inj : forall (w c x c' x' : string), [w; "configs"; c; "outputs"; x] = [w; "configs"; c'; "outputs"; x'] -> c = c' /\ x = x'.
Proof. intros w c x c' x' E. injection E as -> ->. split; reflexivity. Qed.
Lemma last_made_exists : forall es q j p, In (Processed j p) es -> product j p q -> exists j' p', last_made es q j' p'.
Proof.
  induction es as [|e es IH]; intros q j p I P; [destruct I|].
  destruct (processed_dec es q) as [(j1 & p1 & I1 & P1)|N].
  - destruct (IH q j1 p1 I1 P1) as (j' & p' & pre & post & E & X). exists j', p', (e :: pre), post. rewrite E. split; [reflexivity|exact X].
  - destruct I as [->|I]; [|elim (N j p I P)]. exists j, p, [], es. split; [reflexivity|]. split; [exact P|exact N].
Qed.
Lemma last_made_in : forall es q j p, last_made es q j p -> In (Processed j p) es /\ product j p q.
Proof. intros es q j p (pre & post & -> & P & _). split; [apply in_or_app; right; left; reflexivity|exact P]. Qed.

Section Run.
Variable W : path.
Variable resource : bool -> string -> string.
Variable fnmatch : string -> string -> bool.
Variable cwd : path.
Variable usable : texts -> option err.
Variable chain : texts -> string -> string -> res err outcome.
Notation plan := (run_plan W resource fnmatch cwd).
Notation run := (CliModel.run W resource fnmatch cwd (build usable) (processing chain)).
Notation job_of := (CliModel.job_of W cwd).
Notation replay := (replay (build usable) (processing chain)).

Lemma processed_in : forall a w cs ps j p, In (Processed j p) (expected_events (job_of a w) cs ps) <->
  exists c, In c cs /\ j = job_of a w c /\ In p ps.
Proof.
  intros a w cs ps j p. unfold expected_events. rewrite in_flat_map. split.
  - intros (c & I & [E|H]); [discriminate|]. apply in_map_iff in H. destruct H as (p' & E & I'). injection E as <- <-. exists c. auto.
  - intros (c & I & -> & I'). exists c. split; [exact I|]. right. apply in_map. exact I'.
Qed.
Lemma built_in : forall a w cs ps j, In (Built j) (expected_events (job_of a w) cs ps) <-> exists c, In c cs /\ j = job_of a w c.
Proof.
  intros a w cs ps j. unfold expected_events. rewrite in_flat_map. split.
  - intros (c & I & [E|H]); [injection E as <-; exists c; auto|]. apply in_map_iff in H. destruct H as (p' & E & _). discriminate.
  - intros (c & I & ->). exists c. split; [exact I|]. left. reflexivity.
Qed.

Lemma run_ok : forall a t n t' n', run a t n = (t', n', Ok tt) ->
  exists n1 w cs ps, plan a n = (n1, Ok (w, cs, ps)) /\ replay (expected_events (job_of a w) cs ps) t n1 = (t', n', Ok tt).
Proof.
  intros a t n t' n' H. rewrite C57_exact in H. destruct (plan a n) as [n1 [[[w cs] ps]|e]].
  - exists n1, w, cs, ps. split; [reflexivity|].
    destruct (replay (expected_events (job_of a w) cs ps) t n1) as [[t2 n2] [[]|e]]; [exact H|]. destruct e; discriminate.
  - destruct e; discriminate.
Qed.

(** A run that succeeds leaves exactly the files that were there when it
    started processing and the products, each made from the configuration and
    the input as they were then; of two products with the same path the later
    one stays. *)
Theorem C127_exactly : forall a t n t' n', run a t n = (t', n', Ok tt) ->
  exists n1 w cs ps, plan a n = (n1, Ok (w, cs, ps)) /\
    let es := expected_events (job_of a w) cs ps in
    t' = t ++ es /\ (flat es -> separate es -> exactly chain es n1 n').
Proof.
  intros a t n t' n' H. destruct (run_ok _ _ _ _ _ H) as (n1 & w & cs & ps & P & R). exists n1, w, cs, ps.
  split; [exact P|]. cbv zeta. split; [exact (C57_first_failure _ _ _ _ _ _ _ _ R)|].
  intros Fl Sp. exact (replay_exact usable chain _ _ _ _ _ Fl Sp R).
Qed.

(** Whatever happens, a file that is not the place of a product is as it was. *)
Theorem C127_only : forall a t n t' n' r n1 w cs ps, run a t n = (t', n', r) -> plan a n = (n1, Ok (w, cs, ps)) ->
  flat (expected_events (job_of a w) cs ps) ->
  forall q s, (forall c p, In c cs -> In p ps -> ~ product (job_of a w c) p q) -> (file_at n' q s <-> file_at n1 q s).
Proof.
  intros a t n t' n' r n1 w cs ps H P Fl q s NP. rewrite C57_exact, P in H.
  destruct (replay (expected_events (job_of a w) cs ps) t n1) as [[t2 n2] r2] eqn:R.
  assert (E : n' = n2) by (destruct r2 as [u|e]; [|destruct e]; cbn in H; injection H as _ <- _; reflexivity). subst n'.
  apply (replay_only usable chain _ _ _ _ _ _ Fl R). intros j p I. apply processed_in in I. destruct I as (c & Ic & -> & Ip).
  apply NP; assumption.
Qed.

(** A run that fails: the products up to the failure are there as if it had
    succeeded; only the products of the input at which it failed may be
    incomplete. *)
Theorem C127_failure : forall a t n t' n' e n1 w cs ps, run a t n = (t', n', Err e) -> plan a n = (n1, Ok (w, cs, ps)) ->
  let es := expected_events (job_of a w) cs ps in flat es -> separate es ->
  exists pre ev post m x, es = pre ++ ev :: post /\ t' = t ++ pre ++ [ev] /\ exactly chain pre n1 m /\
    e = (match x with EWs | EProc => ECmd | _ => x end) /\
    match ev with
    | Built j => n' = m
    | Processed j p => forall q s, ~ product j p q -> (file_at n' q s <-> file_at m q s)
    end.
Proof.
  intros a t n t' n' e n1 w cs ps H P es Fl Sp. rewrite C57_exact, P in H. fold es in H.
  destruct (replay es t n1) as [[t2 n2] [u|x]] eqn:R; [discriminate|].
  pose proof (C57_first_failure _ _ _ _ _ _ _ _ R) as (pre & ev & post & m & E & Et & R1 & Pe).
  assert (Q : t' = t2 /\ n' = n2 /\ e = match x with EWs | EProc => ECmd | _ => x end)
    by (destruct x; cbn in H; injection H as <- <- <-; auto).
  destruct Q as (-> & -> & ->). exists pre, ev, post, m, x. split; [exact E|]. split; [exact Et|].
  assert (Fl1 : flat pre) by (intros j p I; apply (Fl j p); rewrite E; apply in_or_app; left; exact I).
  assert (Sp1 : separate pre).
  { intros j p q I Pr (j0 & A & p0 & B). apply (Sp j p q); [rewrite E; apply in_or_app; left; exact I|exact Pr|].
    exists j0. split; [|exists p0; rewrite E; apply in_or_app; left; exact B].
    destruct A as [A|[A|[A|A]]]; auto. right. right. right. rewrite E. apply in_or_app. left. exact A. }
  split; [exact (replay_exact usable chain _ _ _ _ _ Fl1 Sp1 R1)|]. split; [reflexivity|].
  destruct ev as [j|j p]; cbn [perform] in Pe.
  - exact (build_eq usable _ _ _ _ _ Pe).
  - destruct (processing_files chain j p _ _ _ _ (Fl j p ltac:(rewrite E; apply in_or_app; right; left; reflexivity)) Pe) as (A & _). exact A.
Qed.

(** Carrying out the same work again changes no file. *)
Theorem C127_repeat : forall es t n t1 n1 t2 t3 n2, flat es -> separate es ->
  replay es t n = (t1, n1, Ok tt) -> replay es t2 n1 = (t3, n2, Ok tt) ->
  forall q s, file_at n2 q s <-> file_at n1 q s.
Proof.
  intros es t n t1 n1 t2 t3 n2 Fl Sp R1 R2 q s.
  pose proof (replay_exact usable chain _ _ _ _ _ Fl Sp R1 q s) as X1.
  pose proof (replay_exact usable chain _ _ _ _ _ Fl Sp R2 q s) as X2.
  assert (CS : forall j p, In (Processed j p) es -> (content chain n1 j p q s <-> content chain n j p q s)).
  { intros j p I. apply content_same. intros x s0 Hx. apply (replay_only usable chain _ _ _ _ _ _ Fl R1).
    intros j' p' I' Pr. apply (Sp j' p' x I' Pr). exists j. split; [|exists p; exact I].
    destruct Hx as [Hx|[Hx|[Hx|Hx]]]; auto. subst x. right. right. right. exact I. }
  rewrite X2. split.
  - intros [(j & p & L & C)|(N & L)]; [|exact L]. apply X1. left. exists j, p. split; [exact L|].
    apply CS; [apply (last_made_in _ _ _ _ L)|exact C].
  - intro L. pose proof L as L0. apply X1 in L. destruct L as [(j & p & L & C)|(N & L)].
    + left. exists j, p. split; [exact L|]. apply CS; [apply (last_made_in _ _ _ _ L)|exact C].
    + right. split; assumption.
Qed.

(** * In a workspace *)

Lemma home_product : forall a w cs ps c p q, home W a w cs ps -> In c cs -> product (job_of a w c) p q ->
  (q = W ++ [w; "configs"; c; "outputs"; l1b_name c (last p "")]) \/
  (ra_skip a = false /\ q = W ++ [w; "configs"; c; "outputs"; l1bs_name c (last p "")]).
Proof.
  intros a w cs ps c p q (O & Hw & Hc & _) Ic P.
  destruct (C57_job W cwd a w c Hw (Hc c Ic)) as (J1 & _ & _ & _ & J5 & J6 & _). specialize (J6 O).
  unfold product, l1b_of, l1bs_of in P. rewrite J1, J5, J6, <- !app_assoc in P. exact P.
Qed.
Lemma home_product_rev : forall a w cs ps c p, home W a w cs ps -> In c cs ->
  l1b_of (job_of a w c) p = W ++ [w; "configs"; c; "outputs"; l1b_name c (last p "")] /\
  l1bs_of (job_of a w c) p = W ++ [w; "configs"; c; "outputs"; l1bs_name c (last p "")].
Proof.
  intros a w cs ps c p (O & Hw & Hc & _) Ic.
  destruct (C57_job W cwd a w c Hw (Hc c Ic)) as (J1 & _ & _ & _ & J5 & J6 & _). specialize (J6 O).
  unfold l1b_of, l1bs_of. rewrite J1, J6, <- !app_assoc. split; reflexivity.
Qed.
Lemma home_source : forall a w cs ps q, home W a w cs ps -> source (expected_events (job_of a w) cs ps) q ->
  (exists c f, In c cs /\ q = W ++ [w; "configs"; c; f]) \/ (exists x, q = W ++ [w; "inputs"; x]).
Proof.
  intros a w cs ps q (O & Hw & Hc & Hp) (j & A & p & B). apply processed_in in B. destruct B as (c & Ic & -> & _).
  destruct (C57_job W cwd a w c Hw (Hc c Ic)) as (_ & J2 & J3 & J4 & _).
  destruct A as [->|[->|[->|A]]]; [left; exists c; eauto..|].
  right. apply processed_in in A. destruct A as (_ & _ & _ & I). destruct (Hp q I) as (x & _ & ->). exists x. reflexivity.
Qed.

(** In a workspace as the manager lays it out no product is written over a
    file that is read, so that C127_exactly applies. *)
Theorem C127_workspace : forall a w cs ps, home W a w cs ps ->
  flat (expected_events (job_of a w) cs ps) /\ separate (expected_events (job_of a w) cs ps).
Proof.
  intros a w cs ps H. split.
  - intros j p I. apply processed_in in I. destruct I as (c & Ic & -> & _). destruct H as (O & Hw & Hc & _).
    destruct (C57_job W cwd a w c Hw (Hc c Ic)) as (J1 & _). rewrite J1. apply plain_inv. exact (Hc c Ic).
  - intros j p q I P Sq. apply processed_in in I. destruct I as (c & Ic & -> & _).
    apply (home_source a w cs ps q H) in Sq.
    assert (E : List.length q = List.length W + 5).
    { destruct (home_product a w cs ps c p q H Ic P) as [->|(_ & ->)]; rewrite app_length; reflexivity. }
    destruct Sq as [(c' & f & _ & ->)|(x & ->)]; rewrite app_length in E; cbn in E; lia.
Qed.
(** The inputs of a run without "-i" are those of the workspace. *)
Theorem C127_home : forall a n n1 w cs ps, plan a n = (n1, Ok (w, cs, ps)) -> wf n1 -> ra_inputs a = [] -> given (ra_out a) = None ->
  plain w = true -> (forall c, In c cs -> plain c = true) ->
  (forall x, is_file (W ++ [w; "inputs"; x]) n1 = true -> plain x = true) ->
  home W a w cs ps.
Proof.
  intros a n n1 w cs ps P Wf Hi Ho Hw Hc Hx. split; [exact Ho|]. split; [exact Hw|]. split; [exact Hc|]. intros p Ip.
  destruct (C57_selected W resource fnmatch cwd a n n1 w cs ps P) as (_ & _ & _ & _ & _ & _ & _ & _ & _ & G).
  specialize (G Hi). unfold get_input_paths in G. unfold bindM in G.
  destruct (C53_inputs W fnmatch w "c" PNone n1) as (E1 & _ & E2 & _). rewrite E1, (E2 Hw) in G.
  destruct (exists_at (W ++ [w; "inputs"]) n1) eqn:E.
  - assert (D : is_dir (W ++ [w; "inputs"]) n1 = true).
    { destruct (is_dir (W ++ [w; "inputs"]) n1) eqn:D; [reflexivity|]. exfalso.
      unfold nc_list, bindM, look, need, listdir in G. unfold is_dir in D.
      destruct (lookup (W ++ [w; "inputs"]) n1) as [[s|d]|]; discriminate. }
    destruct (C53_all fnmatch (W ++ [w; "inputs"]) n1 PNone Wf D (or_introl eq_refl)) as (l & L & (LI & _)).
    rewrite L in G. cbn in G. injection G as <-. apply in_map_iff in Ip. destruct Ip as (x & <- & Ix).
    apply LI in Ix. destruct Ix as (_ & F). rewrite <- app_assoc in F. cbn in F. pose proof (Hx x F) as Px.
    exists x. split; [exact Px|]. rewrite (join_plain _ _ Px), <- app_assoc. reflexivity.
  - cbn in G. injection G as <-. destruct Ip.
Qed.

(** Every input of every configuration has its own products, made from this
    input and this configuration, provided that the names of the inputs
    without "L1A" and extension differ. *)
Theorem C127_each : forall a t n t' n' n1 w cs ps, run a t n = (t', n', Ok tt) -> plan a n = (n1, Ok (w, cs, ps)) ->
  home W a w cs ps ->
  (forall p p', In p ps -> In p' ps -> l1a_base (last p "") = l1a_base (last p' "") -> p = p') ->
  forall c p, In c cs -> In p ps -> exists h f k i o,
    file_at n1 (W ++ [w; "configs"; c; "CHD.json"]) h /\ file_at n1 (W ++ [w; "configs"; c; "CNF.json"]) f /\
    file_at n1 (W ++ [w; "configs"; c; "CST.json"]) k /\ file_at n1 p i /\
    chain (h, f, k) (last p "") i = Ok o /\ o_err o = None /\
    file_at n' (W ++ [w; "configs"; c; "outputs"; l1b_name c (last p "")]) (o_l1b o) /\
    (ra_skip a = false -> file_at n' (W ++ [w; "configs"; c; "outputs"; l1bs_name c (last p "")]) (o_l1bs o)).
Proof.
  intros a t n t' n' n1 w cs ps H P Hm D c p Ic Ip. rewrite C57_exact, P in H.
  set (es := expected_events (job_of a w) cs ps) in *.
  assert (R : replay es t n1 = (t', n', Ok tt)).
  { destruct (replay es t n1) as [[t2 n2] [[]|e]]; [exact H|]. destruct e; discriminate. }
  destruct (C127_workspace a w cs ps Hm) as (Fl & Sp). fold es in Fl, Sp.
  assert (I : In (Processed (job_of a w c) p) es) by (apply processed_in; exists c; auto).
  destruct (replay_content usable chain _ _ _ _ _ _ _ Fl Sp R I) as (h & f & k & i & o & A & B & C & E & G & Z).
  pose proof (replay_exact usable chain _ _ _ _ _ Fl Sp R) as X.
  destruct (home_product_rev a w cs ps c p Hm Ic) as (Q1 & Q2).
  pose proof Hm as (O & Hw & Hc & _).
  destruct (C57_job W cwd a w c Hw (Hc c Ic)) as (_ & J2 & J3 & J4 & J5 & _).
  exists h, f, k, i, o. rewrite <- J2, <- J3, <- J4. split; [exact A|]. split; [exact B|]. split; [exact C|]. split; [exact E|].
  split; [exact G|]. split; [exact Z|].
  assert (U : forall q s, product (job_of a w c) p q -> content chain n1 (job_of a w c) p q s -> file_at n' q s).
  { intros q s Pq Cq. apply X. left. destruct (last_made_exists es q _ _ I Pq) as (j' & p' & L). exists j', p'.
    split; [exact L|]. destruct (last_made_in _ _ _ _ L) as (I' & Pq'). apply processed_in in I'. destruct I' as (c' & Ic' & -> & Ip').
    assert (Ec : c' = c /\ p' = p).
    { destruct (home_product a w cs ps c p q Hm Ic Pq) as [E1|(_ & E1)];
      destruct (home_product a w cs ps c' p' q Hm Ic' Pq') as [E2|(_ & E2)]; rewrite E2 in E1; apply app_inv_head in E1;
      apply tail_inj in E1; destruct E1 as (Ec & En); subst c'.
      - split; [reflexivity|]. apply (D p' p Ip' Ip). apply (l1b_inj _ _ _ En).
      - symmetry in En. elim (name_kinds _ _ _ _ En).
      - elim (name_kinds _ _ _ _ En).
      - split; [reflexivity|]. apply (D p' p Ip' Ip). apply (l1bs_inj _ _ _ En). }
    destruct Ec as (-> & ->). exact Cq. }
  split.
  - rewrite <- Q1. apply U; [left; reflexivity|]. exists h, f, k, i, o. repeat split; try assumption. left. auto.
  - intro Sk. rewrite <- Q2. rewrite <- J5 in Sk. apply U; [right; auto|]. exists h, f, k, i, o. repeat split; try assumption. right. auto.
Qed.

(** After the run the manager lists for each configuration the outputs that
    were there and the products, each once. *)
Theorem C127_listing : forall a t n t' n' n1 w cs ps, run a t n = (t', n', Ok tt) -> plan a n = (n1, Ok (w, cs, ps)) ->
  home W a w cs ps -> wf n1 -> forall c, In c cs ->
  exists l, get_output_names W fnmatch w c PNone n' = (n', Ok l) /\
    lists (fun x => nc_file (W ++ [w; "configs"; c; "outputs"]) n1 x \/
                    exists p, In p ps /\ (x = l1b_name c (last p "") \/ (ra_skip a = false /\ x = l1bs_name c (last p "")))) l.
Proof.
  intros a t n t' n' n1 w cs ps H P Hm Wf c Ic.
  pose proof (C57_selected W resource fnmatch cwd a n n1 w cs ps P) as (_ & _ & _ & _ & _ & _ & _ & NE & _).
  rewrite C57_exact, P in H. set (es := expected_events (job_of a w) cs ps) in *.
  assert (R : replay es t n1 = (t', n', Ok tt)).
  { destruct (replay es t n1) as [[t2 n2] [[]|e]]; [exact H|]. destruct e; discriminate. }
  destruct (C127_workspace a w cs ps Hm) as (Fl & Sp). fold es in Fl, Sp.
  pose proof (replay_exact usable chain _ _ _ _ _ Fl Sp R) as X.
  pose proof (replay_wf usable chain _ _ _ _ _ _ Wf R) as Wf'.
  pose proof Hm as (O & Hw & Hc & _).
  assert (MK : forall c p q, In c cs -> In p ps -> product (job_of a w c) p q -> exists s, file_at n' q s).
  { intros c0 p q Ic0 Ip Pq. assert (I : In (Processed (job_of a w c0) p) es) by (apply processed_in; exists c0; auto).
    destruct (last_made_exists es q _ _ I Pq) as (j' & p' & L). destruct (last_made_in _ _ _ _ L) as (I' & Pq').
    destruct (replay_content usable chain _ _ _ _ _ _ _ Fl Sp R I') as (h & f & k & i & o & A & B & C & E & G & Z).
    destruct Pq' as [E1|(Sk & E1)].
    - exists (o_l1b o). apply X. left. exists j', p'. split; [exact L|]. exists h, f, k, i, o. repeat split; try assumption. left. auto.
    - exists (o_l1bs o). apply X. left. exists j', p'. split; [exact L|]. exists h, f, k, i, o. repeat split; try assumption. right. auto. }
  set (d := W ++ [w; "configs"; c; "outputs"]) in *.
  destruct (home_product_rev a w cs ps c [] Hm Ic) as (_ & _).
  assert (PR : forall p, l1b_of (job_of a w c) p = d ++ [l1b_name c (last p "")] /\ l1bs_of (job_of a w c) p = d ++ [l1bs_name c (last p "")]).
  { intro p. unfold d. rewrite <- !app_assoc. apply (home_product_rev a w cs ps c p Hm Ic). }
  assert (Dd : is_dir d n' = true).
  { destruct ps as [|p ps']; [now elim NE|].
    destruct (MK c p (l1b_of (job_of a w c) p) Ic (or_introl eq_refl) (or_introl eq_refl)) as (s & L).
    destruct (PR p) as (Q & _). rewrite Q in L. apply (exists_parent_dir d (l1b_name c (last p "")) []).
    unfold exists_at. unfold file_at in L. rewrite L. reflexivity. }
  destruct (C53_inputs W fnmatch w c PNone n') as (_ & E1 & _ & E2). rewrite E1, (E2 Hw (Hc c Ic)). fold d.
  rewrite (is_dir_exists _ _ Dd).
  destruct (C53_all fnmatch d n' PNone Wf' Dd (or_introl eq_refl)) as (l & -> & (LI & LS)).
  exists l. split; [reflexivity|]. split; [|exact LS]. intro x. rewrite LI. unfold nc_file.
  destruct (C57_job W cwd a w c Hw (Hc c Ic)) as (_ & _ & _ & _ & J5 & _).
  assert (FF : forall m q, is_file q m = true <-> exists s, file_at m q s).
  { intros m q. unfold is_file, file_at. destruct (lookup q m) as [[s|e]|]; split; try discriminate; eauto.
    - intros (s & K). discriminate.
    - intros (s & K). discriminate. }
  split.
  - intros (B & F). apply FF in F. destruct F as (s & F). apply X in F. destruct F as [(j & p & L & _)|(_ & F)].
    + right. destruct (last_made_in _ _ _ _ L) as (I & Pq). apply processed_in in I. destruct I as (c' & Ic' & -> & Ip).
      unfold d in Pq. rewrite <- app_assoc in Pq. cbn in Pq. exists p. split; [exact Ip|].
      destruct (home_product a w cs ps c' p _ Hm Ic' Pq) as [E|(Sk & E)]; apply app_inv_head in E; apply tail_inj in E; destruct E as (E & En); subst c';
        [left; exact En|right; split; assumption].
    + left. split; [exact B|]. apply FF. exists s. exact F.
  - intros [(B & F)|(p & Ip & K)].
    + split; [exact B|]. apply FF. apply FF in F. destruct F as (s & F).
      destruct (processed_dec es (d ++ [x])) as [(j & p & I & Pq)|N].
      * apply processed_in in I. destruct I as (c' & Ic' & -> & Ip). apply (MK c' p _ Ic' Ip Pq).
      * exists s. apply X. right. split; assumption.
    + destruct (PR p) as (Q1 & Q2). destruct K as [->|(Sk & ->)].
      * split; [apply l1b_nc|]. apply FF. rewrite <- Q1. apply (MK c p _ Ic Ip). left. reflexivity.
      * split; [apply l1bs_nc|]. apply FF. rewrite <- Q2. apply (MK c p _ Ic Ip). right. rewrite J5. auto.
Qed.

(** A run in a workspace succeeds when the files are there and are accepted,
    processing raises nothing and nothing is in the way of the products; the
    folders for the outputs need not exist. *)
Theorem C127_succeeds : forall a t n n1 w cs ps, plan a n = (n1, Ok (w, cs, ps)) -> home W a w cs ps ->
  (forall c, In c cs -> is_dir (W ++ [w; "configs"; c]) n1 = true /\ is_file (W ++ [w; "configs"; c; "outputs"]) n1 = false) ->
  (forall c p, In c cs -> In p ps -> ready usable chain n1 (job_of a w c) p /\
    is_dir (W ++ [w; "configs"; c; "outputs"; l1b_name c (last p "")]) n1 = false /\
    is_dir (W ++ [w; "configs"; c; "outputs"; l1bs_name c (last p "")]) n1 = false) ->
  exists n', run a t n = (t ++ expected_events (job_of a w) cs ps, n', Ok tt).
Proof.
  intros a t n n1 w cs ps P Hm Dc Rd.
  pose proof (C57_selected W resource fnmatch cwd a n n1 w cs ps P) as (_ & _ & _ & _ & _ & _ & _ & NE & _).
  destruct (C127_workspace a w cs ps Hm) as (Fl & Sp). pose proof Hm as (O & Hw & Hc & _).
  destruct (replay_ok usable chain (expected_events (job_of a w) cs ps) t n1 Fl Sp) as (n' & R).
  - intros j I. apply built_in in I. destruct I as (c & Ic & ->). split.
    + destruct ps as [|p ps']; [now elim NE|]. destruct (Rd c p Ic (or_introl eq_refl)) as ((h & f & k & i & o & A & B & C & _ & U & _) & _).
      exists h, f, k. auto.
    + intros j' p' I'. apply processed_in in I'. destruct I' as (c' & Ic' & -> & Ip').
      assert (G : forall q, List.length q = List.length W + 4 -> ~ product (job_of a w c') p' q).
      { intros q E Pq. destruct (home_product a w cs ps c' p' q Hm Ic' Pq) as [->|(_ & ->)]; rewrite app_length in E; cbn in E; lia. }
      destruct (C57_job W cwd a w c Hw (Hc c Ic)) as (_ & J2 & J3 & J4 & _). rewrite J2, J3, J4.
      repeat split; apply G; rewrite app_length; reflexivity.
  - intros j p I. apply processed_in in I. destruct I as (c & Ic & -> & Ip). destruct (Rd c p Ic Ip) as (R1 & R2 & R3). split; [exact R1|].
    destruct (C57_job W cwd a w c Hw (Hc c Ic)) as (_ & _ & _ & _ & _ & J6 & _). specialize (J6 O).
    destruct (Dc c Ic) as (D1 & D2). exists (W ++ [w; "configs"; c]), "outputs". rewrite J6, <- app_assoc. split; [reflexivity|].
    split; [exact D1|]. split.
    + intros s L. unfold is_file in D2. unfold file_at in L. rewrite L in D2. discriminate.
    + intros q Pq. destruct (home_product a w cs ps c p q Hm Ic Pq) as [->|(_ & ->)]; assumption.
  - intros j p j' p' I I'. apply processed_in in I. destruct I as (c & Ic & -> & Ip). apply processed_in in I'. destruct I' as (c' & Ic' & -> & Ip').
    destruct (C57_job W cwd a w c' Hw (Hc c' Ic')) as (_ & _ & _ & _ & _ & J6 & _). specialize (J6 O).
    assert (G : ~ product (job_of a w c) p (CliModel.j_out (job_of a w c'))).
    { intro Pq. apply (home_product a w cs ps c p _ Hm Ic) in Pq. rewrite J6 in Pq.
      destruct Pq as [E|(_ & E)]; apply (f_equal (@List.length string)) in E; rewrite !app_length in E; cbn in E; lia. }
    split; [exact G|]. intros q Pq ->. exact (G Pq).
  - exists n'. rewrite C57_exact, P, R. reflexivity.
Qed.
End Run.
Print Assumptions C127_exactly.
Print Assumptions C127_only.
Print Assumptions C127_failure.
Print Assumptions C127_repeat.
Print Assumptions C127_workspace.
Print Assumptions C127_home.
Print Assumptions C127_each.
Print Assumptions C127_listing.
Print Assumptions C127_succeeds.

(** * A run on a small tree *)
Definition m_tree (x y : string) : node :=
  NDir [("ws", NDir [(".current", NFile "a");
    ("a", NDir [("inputs", NDir [(x, NFile "one"); (y, NFile "two")]);
                ("configs", NDir [(".current", NFile "c");
                   ("c", NDir [("CHD.json", NFile "H"); ("CNF.json", NFile "F"); ("CST.json", NFile "K");
                               ("version.txt", NFile "0")])])])])].
Definition m_args : run_args :=
  {| ra_ws := None; ra_config := None; ra_inputs := []; ra_out := None; ra_all := false; ra_skip := false |}.
Definition m_chain (t : texts) (_ : string) (s : string) : res err outcome :=
  let '(h, f, k) := t in Ok {| o_l1b := ("b " ++ h ++ f ++ k ++ " " ++ s)%string; o_l1bs := ("s " ++ s)%string; o_err := None |}.
Definition m_run (n : node) : list event * node * res err unit :=
  CliModel.run ["ws"] (fun _ _ => "") (fun _ _ => true) ["home"] (build (fun _ => None)) (processing m_chain) m_args [] n.
Definition m_outputs : path := ["ws"; "a"; "configs"; "c"; "outputs"].
Example C127_example :
  let '(t, n, r) := m_run (m_tree "L1A_1.nc" "2.nc") in
  r = Ok tt /\
  snd (get_output_names ["ws"] (fun _ _ => true) "a" "c" PNone n) = Ok ["L1BS_2_c.nc"; "L1BS__1_c.nc"; "L1B_2_c.nc"; "L1B__1_c.nc"] /\
  file_at n (m_outputs ++ ["L1B__1_c.nc"]) "b HFK one" /\ file_at n (m_outputs ++ ["L1BS__1_c.nc"]) "s one" /\
  file_at n (m_outputs ++ ["L1B_2_c.nc"]) "b HFK two" /\ file_at n ["ws"; "a"; "inputs"; "2.nc"] "two" /\
  exists n1, run_plan ["ws"] (fun _ _ => "") (fun _ _ => true) ["home"] m_args (m_tree "L1A_1.nc" "2.nc") =
               (n1, Ok ("a", ["c"], [["ws"; "a"; "inputs"; "2.nc"]; ["ws"; "a"; "inputs"; "L1A_1.nc"]])) /\
             home ["ws"] m_args "a" ["c"] [["ws"; "a"; "inputs"; "2.nc"]; ["ws"; "a"; "inputs"; "L1A_1.nc"]].
Proof.
  vm_compute. repeat split; try reflexivity. eexists. split; [reflexivity|]. repeat split; try reflexivity.
  - intros c [<-|[]]. reflexivity.
  - intros p [<-|[<-|[]]]; eexists; (split; [|reflexivity]); reflexivity.
Qed.

(** Two inputs of one workspace may share a product: the one for the first is
    lost although the run succeeds and both inputs were processed. *)
Theorem C127_overwritten_refuted : exists n t n', m_run n = (t, n', Ok tt) /\
  List.length (filter (fun e => match e with Processed _ _ => true | _ => false end) t) = 2 /\
  snd (get_output_names ["ws"] (fun _ _ => true) "a" "c" PNone n') = Ok ["L1BS__1_c.nc"; "L1B__1_c.nc"] /\
  file_at n' (m_outputs ++ ["L1B__1_c.nc"]) "b HFK two" /\ file_at n ["ws"; "a"; "inputs"; "L1A_1.nc"] "one".
Proof.
  exists (m_tree "L1A_1.nc" "_1.nc"). eexists. eexists. split; [vm_compute; reflexivity|]. vm_compute. repeat split; reflexivity.
Qed.
Print Assumptions C127_overwritten_refuted.

(** * The processor for tests *)

Lemma len_app : forall a b, String.length (a ++ b)%string = String.length a + String.length b.
Proof. induction a; intros; cbn; [reflexivity|]. rewrite IHa. reflexivity. Qed.
Lemma len_part : forall s, s <> "" -> part s = ("_" ++ s)%string.
Proof. intros s H. unfold part. destruct (s =? "")%string eqn:E; [apply String.eqb_eq in E; congruence|reflexivity]. Qed.
Lemma dummy_name_eq : forall kind run file,
  dummy_name kind run file = (kind ++ part (l1a_base file) ++ part run ++ ".nc")%string <-> l1a_base file <> "" /\ run <> "".
Proof.
  intros kind run file. unfold dummy_name. split.
  - intro H. apply append_inj_l in H. apply (f_equal String.length) in H. rewrite !len_app in H. unfold part in H.
    destruct (l1a_base file =? "")%string eqn:A, (run =? "")%string eqn:B; try apply String.eqb_eq in A; try apply String.eqb_eq in B;
      rewrite ?A, ?B in H; cbn in H; try lia.
    apply String.eqb_neq in A, B. split; assumption.
  - intros (A & B). rewrite (len_part _ A), (len_part _ B). reflexivity.
Qed.
(** It names its products as the real processor does, unless the name of the
    run or the rest of the name of the input is empty. *)
Theorem C127_dummy_names : forall run file,
  (dummy_name "L1B" run file = l1b_name run file <-> l1a_base file <> "" /\ run <> "") /\
  (dummy_name "L1BS" run file = l1bs_name run file <-> l1a_base file <> "" /\ run <> "").
Proof. intros. split; apply dummy_name_eq. Qed.
Print Assumptions C127_dummy_names.

Lemma records_bound : forall cancel k i w c, dummy_records cancel k i = (w, c) ->
  (c = true <-> forall d, d < k -> cancel (i + d) = false) /\ (if c then w = k else w < k).
Proof.
  induction k as [|k IH]; intros i w c H; cbn [dummy_records] in H.
  - injection H as <- <-. split; [split; [intros _ d Hd; lia|reflexivity]|reflexivity].
  - destruct (cancel i) eqn:E.
    + injection H as <- <-. split; [|lia]. split; [discriminate|]. intro H. specialize (H 0 ltac:(lia)).
      rewrite Nat.add_0_r in H. congruence.
    + destruct (dummy_records cancel k (S i)) as [w1 c1] eqn:R. injection H as <- <-. destruct (IH _ _ _ R) as (A & B). split.
      * rewrite A. split; intros H d Hd.
        -- destruct d as [|d]; [rewrite Nat.add_0_r; exact E|]. rewrite <- Nat.add_succ_comm. apply H. lia.
        -- rewrite Nat.add_succ_comm. apply H. lia.
      * destruct c1; lia.
Qed.
(** It never reports more work than it announced, and all of it exactly when
    it was not cancelled. *)
Theorem C127_dummy_work : forall cancel skip,
  dummy_work cancel skip <= dummy_total skip /\
  (dummy_work cancel skip = dummy_total skip <-> forall i, i < 100 -> cancel i = false).
Proof.
  intros cancel skip. unfold dummy_work, dummy_total. destruct (dummy_records cancel 100 0) as [w c] eqn:R.
  destruct (records_bound _ _ _ _ _ R) as (A & B). destruct c.
  - subst w. split; [destruct skip; lia|]. split; [intros _; apply A; reflexivity|destruct skip; lia].
  - split; [destruct skip; lia|]. split; [destruct skip; lia|]. intro H. apply A in H. discriminate.
Qed.
Print Assumptions C127_dummy_work.

(** What it leaves: nothing for a name with "err" in it (an error) or after
    cancelling (a success); else two empty files. *)
Theorem C127_dummy : forall cancel j p t n n' r, has_char slash (j_name j) = false -> l1a_base (last p "") <> "" -> j_name j <> "" ->
  dummy cancel j p t n = (n', r) ->
  if within "ERR" (upper (last p "")) then n' = n /\ r = Err EProc
  else if snd (dummy_records cancel 100 0)
       then r = Ok tt -> forall q s, file_at n' q s <-> (product j p q /\ s = "") \/ (~ product j p q /\ file_at n q s)
       else n' = n /\ r = Ok tt.
Proof.
  intros cancel j p t n n' r Hs B Nm H. unfold dummy in H. destruct (within "ERR" (upper (last p ""))); [injection H as <- <-; auto|].
  destruct (snd (dummy_records cancel 100 0)); [|injection H as <- <-; auto].
  intro Ok1. subst r.
  destruct (C127_dummy_names (j_name j) (last p "")) as (N1 & N2). rewrite (proj2 N1 (conj B Nm)), (proj2 N2 (conj B Nm)) in H.
  change (join (j_out j) (l1b_name (j_name j) (last p ""))) with (l1b_path (j_out j) (j_name j) (last p "")) in H.
  change (join (j_out j) (l1bs_name (j_name j) (last p ""))) with (l1bs_path (j_out j) (j_name j) (last p "")) in H.
  rewrite (l1b_path_of j p Hs), (l1bs_path_of j p Hs) in H.
  unfold thenM at 1, bindM at 1 in H. destruct (make_dir (j_out j) n) as [n1 [[]|e]] eqn:M; [|discriminate].
  destruct (make_dir_files _ _ _ _ M) as (F0 & _).
  assert (WF : forall q m m', fs EOs (write_file q "") m = (m', Ok tt) ->
    forall x s, file_at m' x s <-> (x = q /\ s = "") \/ (x <> q /\ file_at m x s)).
  { intros q m m' K x s. unfold fs in K. destruct (write_file q "" m) as [m2|] eqn:E; [|discriminate]. injection K as <-.
    rewrite (write_file_files _ _ _ _ E x s). cbn [In]. split.
    - intros [([<-|[]] & ->)|(N & L)]; [left; auto|right]. split; [intros ->; apply N; left; reflexivity|exact L].
    - intros [(-> & ->)|(N & L)]; [left; split; [left|]; reflexivity|right]. split; [intros [E1|[]]; congruence|exact L]. }
  unfold thenM, bindM in H. unfold product.
  assert (NE : l1b_of j p <> l1bs_of j p).
  { unfold l1b_of, l1bs_of. intro E. apply app_inj_tail in E. destruct E as [_ E]. apply (name_kinds _ _ _ _ E). }
  intros q s. destruct (j_skip j) eqn:SK.
  - cbn in H. rewrite (WF _ _ _ H q s), (F0 q s). intuition congruence.
  - destruct (fs EOs (write_file (l1bs_of j p) "") n1) as [n2 [[]|e]] eqn:W1; [|discriminate].
    rewrite (WF _ _ _ H q s), (WF _ _ _ W1 q s), (F0 q s).
    destruct (path_dec q (l1b_of j p)), (path_dec q (l1bs_of j p)); intuition congruence.
Qed.
Print Assumptions C127_dummy.
Example C127_dummy_example :
  dummy_name "L1B" "c" "in/L1A_x.nc" = "L1B__x_c.nc" /\ l1b_name "c" "in/L1A.nc" = "L1B_c.nc" /\ dummy_name "L1B" "c" "in/L1A.nc" = "L1B__c.nc" /\
  within "ERR" (upper "L1A_terror.nc") = true /\ within "ERR" (upper "L1A_x.nc") = false /\
  dummy_work (fun i => (i =? 7)%nat) false = 7 /\ dummy_work (fun _ => false) false = 102.
Proof. vm_compute. repeat split; reflexivity. Qed.
