(** * C116: two ways to a part of a file, and writing it *)
From Coq Require Import String Ascii List ZArith QArith Bool Lia.
From Verif Require Import Prelude PreludeFacts NdArray GData_Model Select_Model Select_Spec
  Gkyl_Model Gkyl_Spec Gkyl_Proofs2 Gkyl_Props Pipe_Model Pipe_Spec Pipe_Proofs.
Import ListNotations.
Open Scope string_scope. Open Scope list_scope. Open Scope nat_scope.

(** The bounds of the file are in order. *)
Definition bounds_ordered (dec : nat -> list Z -> Q) (rt : Z) (fd : field) : Prop :=
  forall k l u, nth_error (fd_lower fd) k = Some l -> nth_error (fd_upper fd) k = Some u ->
    (dec (width_of rt) l <= dec (width_of rt) u)%Q.

Lemma ordered_lo_up dec rt fd : bounds_ordered dec rt fd ->
  forall k l u, nth_error (LO dec rt fd) k = Some l -> nth_error (UP dec rt fd) k = Some u -> (l <= u)%Q.
Proof.
  intros H k l u. unfold LO, UP. rewrite !nth_error_map.
  destruct (nth_error (fd_lower fd) k) eqn:E1; [|discriminate].
  destruct (nth_error (fd_upper fd) k) eqn:E2; [|discriminate].
  simpl. intros [= <-] [= <-]. eauto.
Qed.

Lemma cells_ne (fd : field) zs cuts nc comp ca cb :
  plain_cuts (fd_cells fd) zs cuts -> plain_comp nc comp ca cb ->
  Forall (fun n => 0 < n) (fd_cells fd) /\ ca < cb <= nc.
Proof. intros H1 H2. split; [eapply good_pos, plain_good; eauto|eapply plain_comp_lt; eauto]. Qed.

(** Loading with cuts, and loading everything and selecting with the same
    arguments, give the same part. *)
Theorem C116_load_or_select : forall M dec unpack (mtrue : M) qstr pfloat rt meta fd rs ctx zs comp cuts ca cb,
  good_file rt meta fd rs -> meta_readable unpack meta -> 0 < length (fd_cells fd) <= 6 ->
  bounds_ordered dec rt fd ->
  plain_cuts (fd_cells fd) zs cuts -> plain_comp (fd_nc fd) comp ca cb ->
  let f := field_file rt meta fd rs in
  exists d g v e part,
    open_gdata dec unpack mtrue qstr f [] None ctx = Ok d /\
    c_cells d = Some (fd_cells fd) /\ c_ncomps d = Some (fd_nc fd) /\
    select pfloat d zs comp true = Ok (g, v, e) /\ g_grid e = Some g /\ g_vals e = Some v /\
    open_gdata dec unpack mtrue qstr f zs comp ctx = Ok part /\
    part_of d cuts ca cb e /\ part_of d cuts ca cb part /\ alike e part.
Proof.
  intros M dec unpack mtrue qstr pfloat rt meta fd rs ctx zs comp cuts ca cb Hfile Hm H6 Hb Hc Hk f.
  destruct (cells_ne _ _ _ _ _ _ _ Hc Hk) as [Hpos Hcc].
  destruct (open_whole dec unpack mtrue qstr rt meta fd rs ctx Hfile Hm) as (data & E & W & Sh & _); [lia|auto|].
  destruct (select_part dec pfloat rt meta fd rs data zs comp cuts ca cb Hfile W Sh (proj1 H6) (ordered_lo_up _ _ _ Hb) Hc Hk)
    as (g & v & e & Es & Eg & Ev & Hp).
  destruct (open_part dec unpack mtrue qstr rt meta fd rs ctx zs comp cuts ca cb data Hfile Hm H6 Hc Hk E)
    as (part & Ep & Hq).
  exists (whole_data dec rt fd data), g, v, e, part.
  split; [exact E|]. split; [reflexivity|]. split; [reflexivity|]. split; [exact Es|]. split; [auto|]. split; [auto|].
  split; [exact Ep|]. split; [auto|]. split; [auto|]. eapply part_alike; eauto.
Qed.
Print Assumptions C116_load_or_select.

(** A part that is written and loaded again is the same part, with exactly the
    same values. *)
Theorem C116_write_back : forall M dec unpack (mtrue : M) qstr enc rt meta fd rs ctx ctx' zs comp cuts ca cb d e,
  good_file rt meta fd rs -> meta_readable unpack meta -> 0 < length (fd_cells fd) <= 6 ->
  plain_cuts (fd_cells fd) zs cuts -> plain_comp (fd_nc fd) comp ca cb ->
  fits (Z.of_nat (prod (fd_cells fd) * fd_nc fd * 8)) ->
  open_gdata dec unpack mtrue qstr (field_file rt meta fd rs) [] None ctx = Ok d ->
  part_of d cuts ca cb e ->
  (* the numbers can be stored *)
  (forall x, length (enc x) = 8) ->
  (forall v x, g_vals e = Some v -> In x (flat v) -> dec 8 (enc x) = x) ->
  (forall l x, c_lower e = Some l \/ c_upper e = Some l -> In x l -> (dec 8%nat (enc x) == x)%Q) ->
  exists bytes e', write_gdata enc e = Ok bytes /\
    open_gdata dec unpack mtrue qstr bytes [] None ctx' = Ok e' /\
    g_vals e' = g_vals e /\ part_of d cuts ca cb e' /\ alike e e'.
Proof.
  intros M dec unpack mtrue qstr enc rt meta fd rs ctx ctx' zs comp cuts ca cb d e
    Hfile Hm H6 Hc Hk Hfit Hopen Hp He Hv Hb.
  destruct (cells_ne _ _ _ _ _ _ _ Hc Hk) as [Hpos Hcc].
  destruct (open_whole dec unpack mtrue qstr rt meta fd rs ctx Hfile Hm) as (data & E & W & Sh & _); [lia|auto|].
  rewrite Hopen in E. injection E as ->.
  destruct (write_part dec unpack mtrue qstr enc rt meta fd rs data cuts ca cb e ctx' Hfile H6 (plain_good _ _ _ Hc) Hcc Hfit He Hp Hv Hb)
    as (bytes & e' & E1 & E2 & E3 & E4).
  exists bytes, e'. do 4 (split; [auto|]). eapply part_alike; eauto.
Qed.
Print Assumptions C116_write_back.

(** load, select, write, load again: as if the part had been loaded from the
    first file. *)
Theorem C116_pipeline : forall M dec unpack (mtrue : M) qstr pfloat enc rt meta fd rs ctx ctx' zs comp cuts ca cb,
  good_file rt meta fd rs -> meta_readable unpack meta -> 0 < length (fd_cells fd) <= 6 ->
  bounds_ordered dec rt fd ->
  plain_cuts (fd_cells fd) zs cuts -> plain_comp (fd_nc fd) comp ca cb ->
  fits (Z.of_nat (prod (fd_cells fd) * fd_nc fd * 8)) ->
  (forall x, length (enc x) = 8) ->
  let f := field_file rt meta fd rs in
  exists d g v e,
    open_gdata dec unpack mtrue qstr f [] None ctx = Ok d /\
    select pfloat d zs comp true = Ok (g, v, e) /\
    ((forall x, In x (flat v) -> dec 8 (enc x) = x) ->
     (forall l x, c_lower e = Some l \/ c_upper e = Some l -> In x l -> (dec 8%nat (enc x) == x)%Q) ->
     exists bytes e' part, write_gdata enc e = Ok bytes /\
       open_gdata dec unpack mtrue qstr bytes [] None ctx' = Ok e' /\
       open_gdata dec unpack mtrue qstr f zs comp ctx = Ok part /\ alike e' part).
Proof.
  intros M dec unpack mtrue qstr pfloat enc rt meta fd rs ctx ctx' zs comp cuts ca cb Hfile Hm H6 Hb Hc Hk Hfit He f.
  destruct (C116_load_or_select M dec unpack mtrue qstr pfloat rt meta fd rs ctx zs comp cuts ca cb Hfile Hm H6 Hb Hc Hk)
    as (d & g & v & e & part & E1 & _ & _ & E2 & _ & Ev & E3 & P1 & P2 & _).
  exists d, g, v, e. split; [exact E1|]. split; [exact E2|]. intros Hv Hl.
  destruct (C116_write_back M dec unpack mtrue qstr enc rt meta fd rs ctx ctx' zs comp cuts ca cb d e
              Hfile Hm H6 Hc Hk Hfit E1 P1 He) as (bytes & e' & W1 & W2 & _ & P3 & _); auto.
  { intros v0 x Hv0 Hx. rewrite Ev in Hv0. injection Hv0 as <-. auto. }
  exists bytes, e', part. split; [auto|]. split; [auto|]. split; [exact E3|]. eapply part_alike; eauto.
Qed.
Print Assumptions C116_pipeline.

(** ** Examples *)

Definition p_dec (_ : nat) (bs : list Z) : Q := inject_Z (le_val bs).
Definition p_enc (x : Q) : list Z := enc_i64 (Qnum x / Zpos (Qden x))%Z.
Definition p_fd : field :=
  mk_field [3; 2] 2 [u64 0; u64 10] [u64 3; u64 14] (List.map u64 [1; 2; 3; 4; 5; 6; 7; 8; 9; 10; 11; 12]%Z).
Definition p_open := open_gdata p_dec ex_unpack 1%Z (fun _ => "0.5").
Definition p_file : list Z := field_bytes 2 [] p_fd.
Definition p_zs : list (option ival) := [Some (VStr "1:"); Some (VInt 1)].
Definition p_comp : option ival := Some (VStr "0:1").
Definition p_red (d : gdata Q) :=
  (option_map (List.map (fun g => List.map Qred (flat g))) (g_grid d), g_vals d, c_cells d, c_ncomps d,
   option_map (List.map Qred) (c_lower d), option_map (List.map Qred) (c_upper d)).

Example C116_hyps :
  good_file 2 [] p_fd None /\ meta_readable ex_unpack [] /\ 0 < length (fd_cells p_fd) <= 6 /\
  bounds_ordered p_dec 2 p_fd /\ plain_cuts (fd_cells p_fd) p_zs [(1, 3); (1, 2)] /\
  plain_comp (fd_nc p_fd) p_comp 0 1 /\
  fits (Z.of_nat (prod (fd_cells p_fd) * fd_nc p_fd * 8)).
Proof.
  split; [good_field_tac|]. split; [now left|]. split; [simpl; lia|]. split.
  { intros [|[|k]] l u; cbn [nth_error p_fd fd_lower fd_upper]; try (destruct k; discriminate);
      intros [= <-] [= <-]; vm_compute; discriminate. }
  split.
  { split; [reflexivity|]. intros [|[|[|k]]] n a b; cbn [nth_error p_fd fd_cells]; try discriminate;
      intros [= <-] [= <- <-].
    - apply (pc_from 3 1). lia.
    - apply (pc_int 2 1). lia. }
  split; [apply (pk_range 2 0 1); simpl; lia|]. split; vm_compute; congruence.
Qed.

Example C116_ex :
  exists d g v e bytes e' part,
    p_open p_file [] None [] = Ok d /\ select (fun _ => None) d p_zs p_comp true = Ok (g, v, e) /\
    write_gdata p_enc e = Ok bytes /\ p_open bytes [] None [] = Ok e' /\
    p_open p_file p_zs p_comp [] = Ok part /\
    p_red e = (Some [[1; 2; 3]; [12; 14]]%Q, Some (mk_nda [2; 1; 1] [inject_Z 7; inject_Z 11]),
               Some [2; 1], Some 1, Some [1; 12]%Q, Some [3; 14]%Q) /\
    p_red e' = p_red e /\ p_red part = p_red e /\
    (forall x, In x (flat v) -> p_dec 8 (p_enc x) = x) /\
    (forall l x, c_lower e = Some l \/ c_upper e = Some l -> In x l -> (p_dec 8%nat (p_enc x) == x)%Q).
Proof.
  do 7 eexists.
  split; [vm_compute; reflexivity|]. split; [vm_compute; reflexivity|]. split; [vm_compute; reflexivity|].
  split; [vm_compute; reflexivity|]. split; [vm_compute; reflexivity|].
  split; [vm_compute; reflexivity|]. split; [vm_compute; reflexivity|]. split; [vm_compute; reflexivity|].
  split.
  - intros x [<-|[<-|[]]]; vm_compute; reflexivity.
  - intros l x [[= <-]|[= <-]] [<-|[<-|[]]]; vm_compute; reflexivity.
Qed.

(** ** Where the two ways differ *)

(** ":-1" loads all cells but the last; selecting ":-1" keeps them all. *)
Theorem C116_negative_refuted :
  exists d part g v e,
    good_file 2 [] p_fd None /\ p_open p_file [] None [] = Ok d /\
    p_open p_file [Some (VStr ":-1")] None [] = Ok part /\
    select (fun _ => None) d [Some (VStr ":-1")] None true = Ok (g, v, e) /\
    c_cells part = Some [2; 2] /\ c_cells e = Some [3; 2].
Proof.
  do 5 eexists. split; [apply C116_hyps|]. split; [vm_compute; reflexivity|].
  split; [vm_compute; reflexivity|]. split; [vm_compute; reflexivity|]. split; reflexivity.
Qed.
Print Assumptions C116_negative_refuted.

(** Components "1:" can be loaded but not selected. *)
Theorem C116_open_comp_refuted :
  exists d part,
    good_file 2 [] p_fd None /\ p_open p_file [] None [] = Ok d /\
    p_open p_file [] (Some (VStr "1:")) [] = Ok part /\ c_ncomps part = Some 1 /\
    select (fun _ => None) d [] (Some (VStr "1:")) true = Err TypeError.
Proof.
  do 2 eexists. split; [apply C116_hyps|]. split; [vm_compute; reflexivity|].
  split; [vm_compute; reflexivity|]. split; vm_compute; reflexivity.
Qed.
Print Assumptions C116_open_comp_refuted.

(** A coordinate selects one cell, but loading ignores it. *)
Theorem C116_coordinate_refuted :
  exists d part g v e,
    good_file 2 [] p_fd None /\ p_open p_file [] None [] = Ok d /\
    p_open p_file [Some (VFloat (1 # 2))] None [] = Ok part /\
    select (fun _ => None) d [Some (VFloat (1 # 2))] None true = Ok (g, v, e) /\
    c_cells part = Some [3; 2] /\ c_cells e = Some [1; 2].
Proof.
  do 5 eexists. split; [apply C116_hyps|]. split; [vm_compute; reflexivity|].
  split; [vm_compute; reflexivity|]. split; [vm_compute; reflexivity|]. split; reflexivity.
Qed.
Print Assumptions C116_coordinate_refuted.

(** A file that does not start with the magic word (103 107 121 108 48: "gkyl0")
    is refused. *)
Theorem C116_not_gkyl : forall M dec unpack (mtrue : M) qstr f zs comp ctx,
  firstn 5 f <> [103; 107; 121; 108; 48]%Z ->
  open_gdata dec unpack mtrue qstr f zs comp ctx = Err NameError.
Proof.
  intros M dec unpack mtrue qstr f zs comp ctx H. unfold open_gdata.
  destruct (is_compatible f) eqn:E; [|reflexivity]. exfalso. apply H.
  unfold is_compatible, fromfile in E.
  change (5 <? 0)%Z with false in E. change (0 <? 0)%Z with false in E. cbv iota in E.
  match type of E with (if ?c then _ else _) = true => destruct c as [E1|]; [|discriminate] end. clear E H.
  change (Z.to_nat 0) with 0 in E1. cbn [skipn] in E1. revert E1.
  destruct f as [|a [|b [|c [|d [|e f]]]]]; try discriminate.
  replace (Z.to_nat (Z.min 5 (Z.of_nat (length (a :: b :: c :: d :: e :: f))))) with 5 by (cbn [length]; lia).
  cbn. intros [= -> -> -> -> ->]. reflexivity.
Qed.
Print Assumptions C116_not_gkyl.

Example C116_not_gkyl_ex :
  firstn 5 (104 :: tl p_file)%Z <> [103; 107; 121; 108; 48]%Z /\
  p_open (104 :: tl p_file)%Z [] None [] = Err NameError.
Proof. split; [discriminate|vm_compute; reflexivity]. Qed.
