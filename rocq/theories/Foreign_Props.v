(** * C120, C122, C124, C125, C126, C128: files that are not Gkeyll files *)
From Coq Require Import String Ascii List Arith ZArith Bool Lia Reals.
From Verif Require Import Prelude PreludeFacts NdArray Gkyl_Model Msgpack_Model Dg_Model DgCmd_Model Draw_Model Calc_Model
  Show_Model Amount_Model Part_Model Slope_Model Trace_Model Trace_Proofs Nodes_Model FSel_Model.
Import ListNotations.
Open Scope list_scope. Open Scope nat_scope.

(** The bytes do not begin with "gkyl0". Files that one of the other readers (ADIOS, HDF5, FLASH)
    accepts are outside the models of these pipelines. *)
Definition foreign (f : list Z) : Prop := firstn 5 f <> [103; 107; 121; 108; 48]%Z.

Lemma foreign_refused f : foreign f -> is_compatible f = false.
Proof.
  intros H. destruct (is_compatible f) eqn:E; [|reflexivity]. exfalso. apply H.
  unfold is_compatible, fromfile in E.
  change (5 <? 0)%Z with false in E. change (0 <? 0)%Z with false in E. cbv iota in E.
  match type of E with (if ?c then _ else _) = true => destruct c as [E1|]; [|discriminate] end. clear E H.
  change (Z.to_nat 0) with 0 in E1. cbn [skipn] in E1. revert E1.
  destruct f as [|a [|b [|c [|d [|e f]]]]]; try discriminate.
  replace (Z.to_nat (Z.min 5 (Z.of_nat (length (a :: b :: c :: d :: e :: f))))) with 5 by (cbn [length]; lia).
  cbn. intros [= -> -> -> -> ->]. reflexivity.
Qed.

Theorem C120_not_gkyl : forall dec root stored f io o, foreign f -> interpolate_plot dec root stored f io o = Err NameError.
Proof. intros. unfold interpolate_plot, open_file. now rewrite foreign_refused. Qed.
Print Assumptions C120_not_gkyl.

Theorem C122_not_gkyl : forall dec root stored f io text, foreign f -> interpolate_integrate dec root stored f io text = Err NameError.
Proof. intros. unfold interpolate_integrate, open_file. now rewrite foreign_refused. Qed.
Print Assumptions C122_not_gkyl.

Theorem C124_not_gkyl : forall dec root stored f ps io o, foreign f -> part_plot dec root stored f ps io o = Err NameError.
Proof. intros. unfold part_plot, interpolate_part, open_part. now rewrite foreign_refused. Qed.
Print Assumptions C124_not_gkyl.

Theorem C125_not_gkyl : forall dec root f io o, foreign f ->
  (o_basis io = None \/ o_basis io = Some "ms"%string \/ o_basis io = Some "ns"%string \/ o_basis io = Some "mo"%string) ->
  differentiate_plot dec root f io o = Err NameError.
Proof.
  intros dec root f io o H B. unfold differentiate_plot, differentiate_file, open_file. rewrite foreign_refused by assumption.
  destruct B as [->|[->|[->| ->]]]; reflexivity.
Qed.
Print Assumptions C125_not_gkyl.

(** One such file in the list is enough. *)
Theorem C126_not_gkyl : forall dec value argsort root stored fs io text,
  (exists f, In f fs /\ foreign f) -> (forall f, In f fs -> foreign f \/ exists g, open_meta dec f = Ok g) ->
  trace dec value argsort root stored fs io text = Err NameError.
Proof.
  intros dec value argsort root stored fs io text (f & Hf & F) H. unfold trace.
  assert (B : forall x, foreign x -> open_meta dec x = Err NameError) by (intros x Hx; unfold open_meta; now rewrite foreign_refused).
  rewrite (mapM_fails (open_meta dec) NameError fs); [reflexivity| |exists f; auto].
  intros x Hx. destruct (H x Hx) as [Fx|G]; [right; auto|now left].
Qed.
Print Assumptions C126_not_gkyl.

(** A text file. *)
Example C126_not_gkyl_ex dec value argsort root stored io text :
  foreign [49; 46; 48; 10]%Z /\ trace dec value argsort root stored [[49; 46; 48; 10]]%Z io text = Err NameError.
Proof.
  assert (F : foreign [49; 46; 48; 10]%Z) by discriminate. split; [exact F|].
  apply C126_not_gkyl; [exists [49; 46; 48; 10]%Z; split; [now left|exact F]|]. intros f [<-|[]]. now left.
Qed.

(** The flux file of gk_nodes: missing, or not a Gkeyll file; nothing is drawn. *)
Theorem C120_flux_missing : forall dec root files o f,
  match files (in_path o f) with None => True | Some b => foreign b end -> draw_flux dec root files o f = Err NameError.
Proof.
  intros dec root files o f H. unfold draw_flux, draw_psi, read_flux. destruct (files (in_path o f)) as [b|]; [|reflexivity].
  unfold open_file. now rewrite foreign_refused.
Qed.
Print Assumptions C120_flux_missing.
Example C120_flux_missing_ex dec root o : draw_flux dec root (fun _ => None) o "psi.gkyl" = Err NameError /\
  draw_flux dec root (fun _ => Some [49; 46; 48; 10]%Z) o "psi.gkyl" = Err NameError.
Proof. split; apply C120_flux_missing; [exact I|discriminate]. Qed.

Theorem C128_not_gkyl : forall M dec unp (mtrue : M) pfloat f ctx k z, foreign f -> select_at dec unp mtrue pfloat f ctx k z = Err NameError.
Proof. intros. unfold select_at, open_doubles. now rewrite foreign_refused. Qed.
Print Assumptions C128_not_gkyl.
Example C128_not_gkyl_ex M dec unp (mtrue : M) pfloat ctx z : select_at dec unp mtrue pfloat [49; 46; 48; 10]%Z ctx 0 z = Err NameError.
Proof. apply C128_not_gkyl. discriminate. Qed.
