(** C20: the type of a stack. *)
From Coq Require Import List ZArith QArith Qabs Lia Lqa Bool Sorting.Permutation Sorting.Sorted.
From Verif Require Import Common StackModel StackSpec StackProofs StackProps.
Import ListNotations.
Local Open Scope nat_scope.

Lemma map_res_in : forall A B (f : A -> res stack_err B) l v, map_res f l = Ok v ->
  (forall b, In b v -> exists a, In a l /\ f a = Ok b) /\ (forall a, In a l -> exists b, In b v /\ f a = Ok b).
Proof.
  induction l as [|x l IH]; intros v H; cbn in H.
  - injection H as <-. split; intros ? [].
  - destruct (f x) as [y|] eqn:E; cbn in H; [|discriminate]. destruct (map_res f l) as [w|]; cbn in H; [|discriminate]. injection H as <-.
    destruct (IH w eq_refl) as (I1 & I2). split.
    + intros b [<-|I]; [exists x; split; [left; reflexivity|exact E]|]. destruct (I1 b I) as (a & ? & ?). exists a. split; [right|]; assumption.
    + intros a [<-|I]; [exists y; split; [left; reflexivity|exact E]|]. destruct (I2 a I) as (b & ? & ?). exists b. split; [right|]; assumption.
Qed.
(** A stack is one of range migration corrected echoes when one of the bursts it
    is made of is; other contributions do not matter. *)
Theorem C20_type : forall argsort cpi k ns c0 entries g, gather argsort cpi k ns c0 entries = Ok g ->
  (g_rmc g = true <-> exists e, In e (firstn (g_size g) (skipn (g_offset g) entries)) /\ s_rmc (e_burst e) = true).
Proof.
  intros argsort cpi k ns c0 entries g H. destruct (gather_inv _ _ _ _ _ _ _ H) as (looks & _ & M & _ & _ & _ & ->).
  pose proof (map_res_in _ _ _ _ _ M) as (M1 & M2). unfold has_rmc. rewrite existsb_exists.
  assert (B : forall e l, make_look cpi ns e = Ok l -> l_burst l = Some (e_burst e)).
  { intros e l E. unfold make_look in E. destruct (nth_error (s_beams (e_burst e)) (e_index e)); [|discriminate].
    destruct (nth_error (s_angles (e_burst e)) (e_index e)); [|discriminate]. destruct (ns <? length l0); [discriminate|]. injection E as <-. reflexivity. }
  split.
  - intros (l & I & R). destruct (M1 l I) as (e & Ie & E). exists e. split; [exact Ie|]. rewrite (B e l E) in R. exact R.
  - intros (e & Ie & R). destruct (M2 e Ie) as (l & Il & E). exists l. split; [exact Il|]. rewrite (B e l E). exact R.
Qed.
Print Assumptions C20_type.
Definition t_entry (rmc : bool) : entry :=
  {| e_burst := {| s_id := 0; s_beams := [[]]; s_angles := [1%Q]; s_t0 := 0; s_doppler := 0; s_pitch := 0; s_seq := 0%Z; s_rmc := rmc |}; e_index := 0; e_abs := 0 |}.
Example C20_type_example : exists g, gather (fun _ => []) 3 5 0 0 [t_entry false; t_entry true] = Ok g /\ g_rmc g = true.
Proof. eexists. split; [vm_compute; reflexivity|reflexivity]. Qed.
