(** * C120 for the poloidal flux drawn by gk_nodes *)
From Coq Require Import String Ascii List Arith ZArith Bool Lia Reals Lra.
From Verif Require Import Prelude PreludeFacts NdArray Ev_Model Gkyl_Model Gkyl_Spec Gkyl_Proofs Gkyl_Props Msgpack_Model Msgpack_Spec Msgpack_Props
  Dg_Poly Dg_TabI Dg_TabD Dg_Model Dg_Spec Dg_Props Dg_Props3 Dg_Sem Dg_Gram Dg_Props5 DgCmd_Model Dg_Props8
  Tools_Arr Show_Model Show_Spec Show_Proofs Nodes_Model Nodes_Props Nodes_Props2.
Import ListNotations.
Open Scope string_scope. Open Scope list_scope. Open Scope nat_scope.

Section Flux.
  Context (dec : nat -> list Z -> R) (root : nat -> nat -> nat) (files : string -> option (list Z)).
  Context (rt : Z) (meta : list Z) (d : list (mkey * mval)) (fd : field).
  Let dc := dec (width_of rt).
  (** The functions of the tensor family of order 2. *)
  Let fs := it_d2_tensor_o2.

  (** A well-formed file of two dimensions with at least nine coefficients per cell. *)
  Definition flux_file (name : string) : Prop :=
    files name = Some (field_bytes rt meta fd) /\ good_field rt (width_of rt) meta fd /\ described meta d /\
    Forall (fun c => 0 < c) (fd_cells fd) /\ (forall k, k < 2 -> (low dc fd k < high dc fd k)%R) /\
    length (fd_cells fd) = 2 /\ 9 <= fd_nc fd /\ (forall m, root 2 (m ^ 2) = m).

  Lemma read_flux_file name : flux_file name ->
    let m0 := cells_along fd 0 * 3 in let m1 := cells_along fd 1 * 3 in
    2 <= m0 /\ 2 <= m1 /\ exists v, read_flux dec root files name
      = Ok ([linspace rops (low dc fd 0) (high dc fd 0) m0; linspace rops (low dc fd 1) (high dc fd 1) m1], v) /\
      wf v /\ shape v = [m0; m1] /\
      forall i j, i < m0 -> j < m1 -> exists r, get v [i; j] = Some r /\ field_value dc fd fs 0 [middle dc fd 0 m0 i; middle dc fd 1 m1 j] r.
  Proof.
    intros (Ef & Hg & Hd & Pc & Hlh & L2 & Hnc & Hroot) m0 m1.
    assert (P0 : 2 <= m0 /\ 2 <= m1).
    { pose proof (proj1 (Forall_forall _ _) Pc) as P. assert (A : 0 < cells_along fd 0) by (apply P, nth_In; lia). assert (B : 0 < cells_along fd 1) by (apply P, nth_In; lia). unfold m0, m1. lia. }
    split; [apply P0|]. split; [apply P0|].
    destruct (open_described dec rt meta d fd Hg Hd) as (x & ctx & Ex & Hx & _).
    unfold read_flux. rewrite Ef, Ex. cbn [bind]. pose proof Hx as (Wx & Sx & _).
    assert (Ed : dd_dims (i_data x) = 2) by (unfold dd_dims; now rewrite Sx, removelast_snoc).
    set (g := mk_ginterp 2 2 "tensor" 3 9).
    assert (Eg : modal_init (i_data x) (Some 2) (Some "mt") None = Ok g) by (unfold modal_init; rewrite Ed; vm_compute; reflexivity).
    rewrite Eg. cbn [bind].
    destruct (interpolated dec rt fd) with (root := root) (x := x) (g := g) (comps := [0]) (fs := fs) as (v & Ev & Wv & Sv & V).
    { rewrite L2. exact Hlh. } { exact Pc. } { apply Hg. } { exact Hx. } { now rewrite L2. } { rewrite L2. split; [lia|discriminate]. } { discriminate. }
    { reflexivity. } { reflexivity. } { cbn; lia. } { discriminate. }
    { intros c [<-|[]]. cbn. lia. } { rewrite L2. exact Hroot. }
    cbn [gi_interp gi_basis g] in Ev, Sv, V. rewrite L2 in Ev, Sv, V.
    assert (Efi : refined_shape (fd_cells fd) (refine 2 3 "tensor") = [m0; m1]).
    { destruct (fd_cells fd) as [|c0 [|c1 [|]]] eqn:E; try (cbn in L2; lia). unfold m0, m1, cells_along. rewrite E. reflexivity. }
    rewrite Efi in Ev, Sv, V. cbn [length] in Sv. rewrite Ev. cbn [bind seq List.map nth].
    exists (squeeze_all v). split; [reflexivity|].
    assert (Ss : shape (squeeze_all v) = [m0; m1]).
    { unfold squeeze_all. cbn [shape]. rewrite Sv. cbn [app filter].
      destruct (Nat.eqb_spec m0 1); [lia|]. destruct (Nat.eqb_spec m1 1); [lia|]. reflexivity. }
    split; [|split; [exact Ss|]].
    - unfold wf in *. rewrite Ss. unfold squeeze_all. cbn [flat]. rewrite Wv, Sv. unfold prod. cbn [app fold_right]. lia.
    - intros i j Hi Hj. assert (R : in_range [m0; m1] [i; j]) by (repeat (constructor; try assumption)).
      destruct (V 0 0 [i; j] eq_refl R) as (r & Er & Fr). exists r. split.
      + rewrite <- Er. unfold get. rewrite Ss, Sv. cbn [ravel app]. apply Nat.ltb_lt in Hi, Hj. rewrite Hi, Hj. unfold squeeze_all. cbn [flat].
        unfold prod. cbn [option_map Nat.ltb Nat.leb fold_right]. reflexivity.
      + unfold Show_Proofs.mids in Fr. rewrite L2 in Fr. exact Fr.
  Qed.

  (** The flux is the field of the file in the tensor family of order 2, drawn in
      cells three times as fine: colours between the edges of the fine cells, or
      contours through their centres. *)
  Theorem C120_flux o f : flux_file (in_path o f) -> (forall s, some_text (no_clevels o) s -> has_char ":" s = false) ->
    let m0 := cells_along fd 0 * 3 in let m1 := cells_along fd 1 * 3 in
    exists a l ds w, draw_flux dec root files o f = Ok (a :: l, [ds]) /\ nd_values ds = w /\ shape w = [m1; m0] /\
      (forall i j, i < m0 -> j < m1 -> exists r, get w [j; i] = Some r /\ field_value dc fd fs 0 [middle dc fd 0 m0 i; middle dc fd 1 m1 j] r) /\
      (no_contour o = false -> exists x y, a = Mesh x y w /\
         (length x = S m0 /\ forall i, i <= m0 -> nth_error x i = Some (edge dc fd 0 m0 i)) /\
         (length y = S m1 /\ forall j, j <= m1 -> nth_error y j = Some (edge dc fd 1 m1 j))) /\
      (no_contour o = true -> exists x y n, a = Contour x y w n /\
         (length x = m0 /\ forall i, i < m0 -> nth_error x i = Some (middle dc fd 0 m0 i)) /\
         (length y = m1 /\ forall j, j < m1 -> nth_error y j = Some (middle dc fd 1 m1 j))).
  Proof.
    intros Hf Hl m0 m1. destruct (read_flux_file _ Hf) as (P0 & P1 & v & Er & Wv & Sv & V). fold m0 in P0, Er, Sv, V. fold m1 in P1, Er, Sv, V.
    set (gx := linspace rops (low dc fd 0) (high dc fd 0) m0) in *. set (gy := linspace rops (low dc fd 1) (high dc fd 1) m1) in *.
    assert (Lx : length gx = S m0) by apply rlinspace_length. assert (Ly : length gy = S m1) by apply rlinspace_length.
    destruct (C108_psi (read_flux dec root files) o f gx gy v m0 m1 Er Sv Wv) as (a & l & ds & Ep & _ & Ev & Hm & Hc); [lia|lia|exact Hl|].
    assert (Mid : forall a m i, 0 < m -> i < m -> ((edge dc fd a m i + edge dc fd a m (S i)) / 2 = middle dc fd a m i)%R).
    { intros a' m i Hm' _. assert (P : (0 < INR m)%R) by (apply lt_0_INR; exact Hm'). unfold edge, middle. rewrite S_INR. field. lra. }
    assert (Gx : forall i, i <= m0 -> nth_error gx i = Some (edge dc fd 0 m0 i)) by (intros i Hi; apply rlinspace_nth; lia).
    assert (Gy : forall j, j <= m1 -> nth_error gy j = Some (edge dc fd 1 m1 j)) by (intros j Hj; apply rlinspace_nth; lia).
    exists a, l, ds. unfold draw_flux. destruct (no_contour o).
    - destruct (Hc eq_refl) as (x & y & w & n & -> & Sw & Gw & (Lx' & Nx) & (Ly' & Ny) & _). exists w. split; [exact Ep|]. split; [exact Ev|]. split; [exact Sw|]. split; [|split; [discriminate|]].
      + intros i j Hi Hj. rewrite Gw by assumption. now apply V.
      + intros _. exists x, y, n. split; [reflexivity|]. split; (split; [lia|]).
        * intros i Hi. rewrite (nth_error_nth' x 0%R) by lia. rewrite Nx by lia. rewrite (nth_error_nth _ _ 0%R (Gx i ltac:(lia))), (nth_error_nth _ _ 0%R (Gx (S i) ltac:(lia))). f_equal. apply Mid; lia.
        * intros i Hi. rewrite (nth_error_nth' y 0%R) by lia. rewrite Ny by lia. rewrite (nth_error_nth _ _ 0%R (Gy i ltac:(lia))), (nth_error_nth _ _ 0%R (Gy (S i) ltac:(lia))). f_equal. apply Mid; lia.
    - destruct (Hm eq_refl) as (w & -> & _ & Sw & Gw). exists w. split; [exact Ep|]. split; [exact Ev|]. split; [exact Sw|]. split; [|split; [|discriminate]].
      + intros i j Hi Hj. rewrite Gw by assumption. now apply V.
      + intros _. exists gx, gy. auto.
  Qed.
End Flux.
Print Assumptions C120_flux.

(** ** Example, and what the command does not look at *)

Definition byte0 (w : nat) (b : list Z) : R := IZR (nth 0 b 0%Z).
Definition num (z : Z) : list Z := [z; 0; 0; 0; 0; 0; 0; 0]%Z.
(** One cell from 0 to 1 along both axes; the metadata say serendipity, order 3;
    of the twelve coefficients only the last is not zero. *)
Definition ser_meta : list Z := ([130] ++ ([169] ++ codes "polyOrder") ++ [3] ++ ([169] ++ codes "basisType") ++ ([171] ++ codes "serendipity"))%Z.
Definition ser_dict : list (mkey * mval) := [((false, "polyOrder"), MInt 3); ((false, "basisType"), MStr "serendipity")].
Definition ser_file : field := mk_field [1; 1] 12 [num 0; num 0] [num 1; num 1] (repeat (num 0) 11 ++ [num 1]).
Definition only_flux (name : string) : option (list Z) := if String.eqb name "/psi" then Some (field_bytes 2 ser_meta ser_file) else None.

Lemma ser_described : described ser_meta ser_dict.
Proof. right. apply C118_only; [apply bytes_b; vm_compute; reflexivity|vm_compute; reflexivity]. Qed.

Example C120_flux_hyps : flux_file byte0 iroot only_flux 2 ser_meta ser_dict ser_file "/psi".
Proof.
  split; [reflexivity|]. split; [good_field_tac|]. split; [exact ser_described|]. split; [repeat constructor|].
  split; [intros [|[|k]] Hk; [unfold low, high, byte0; cbn; lra|unfold low, high, byte0; cbn; lra|lia]|]. split; [reflexivity|]. split; [vm_compute; lia|].
  intros m. apply (iroot_pow 2). lia.
Qed.

(** The metadata are not consulted: the flux of a file in another basis is not
    that of the file. *)
Theorem C120_flux_metadata_refuted :
  exists dec root files rt meta d fd name fs, flux_file dec root files rt meta d fd name /\
    written d ["basisType"; "basis_type"] (MStr "serendipity") /\ written d ["polyOrder"; "poly_order"] (MInt 3) /\
    interp_functions 2 3 true "serendipity" = Ok fs /\ length fs = fd_nc fd /\
    forall o f, in_path o f = name -> no_contour o = false ->
      exists x y w l ds i j r, draw_flux dec root files o f = Ok (Mesh x y w :: l, ds) /\ get w [j; i] = Some r /\
        ~ field_value (dec (width_of rt)) fd fs 0 [middle (dec (width_of rt)) fd 0 3 i; middle (dec (width_of rt)) fd 1 3 j] r.
Proof.
  exists byte0, iroot, only_flux, 2%Z, ser_meta, ser_dict, ser_file, "/psi", it_d2_ser_o3.
  split; [exact C120_flux_hyps|].
  split. { exists "basisType". split; [now left|]. split; [right; now left|]. intros k w Hk [E|[E|[]]]; inversion E; subst; [|reflexivity]. exfalso. destruct Hk as [X|[X|[]]]; discriminate X. }
  split. { exists "polyOrder". split; [now left|]. split; [now left|]. intros k w Hk [E|[E|[]]]; inversion E; subst; [reflexivity|]. exfalso. destruct Hk as [X|[X|[]]]; discriminate X. }
  split; [reflexivity|]. split; [reflexivity|].
  intros o f Ei Hc. pose proof C120_flux_hyps as Hf. rewrite <- Ei in Hf. set (p := "/psi") in *.
  destruct (read_flux_file _ _ _ _ _ _ _ _ Hf) as (_ & _ & v & Er & Wv & Sv & V). 
  unfold draw_flux, draw_psi. rewrite Er, Hc. cbn [bind two List.map]. 
  change (cells_along ser_file 0 * 3) with 3 in *. change (cells_along ser_file 1 * 3) with 3 in *.
  destruct (push_ok "psi" [mk_nda [length (linspace rops (low (byte0 (width_of 2)) ser_file 0) (high (byte0 (width_of 2)) ser_file 0) 3)] (linspace rops (low (byte0 (width_of 2)) ser_file 0) (high (byte0 (width_of 2)) ser_file 0) 3);
    mk_nda [length (linspace rops (low (byte0 (width_of 2)) ser_file 1) (high (byte0 (width_of 2)) ser_file 1) 3)] (linspace rops (low (byte0 (width_of 2)) ser_file 1) (high (byte0 (width_of 2)) ser_file 1) 3)] (Ev_Model.transpose 0%R v) 3 [3]) as (ds & Eds & _).
  { unfold Ev_Model.transpose. cbn [shape tabulate]. now rewrite Sv. } { cbn; lia. } { repeat constructor; discriminate. }
  rewrite Eds. cbn [bind]. destruct (V 2 2 ltac:(lia) ltac:(lia)) as (r & Gr & Fr).
  eexists _, _, _, _, _, 2, 2, r. split; [reflexivity|]. split.
  { unfold Ev_Model.transpose. rewrite get_tabulate by (rewrite Sv; repeat (constructor; try lia)). cbn [rev app]. now rewrite Gr. }
  intros (i & (_ & Hi & _) & E). destruct Fr as (i' & (_ & Hi' & _) & E').
  assert (Ii : forall i, in_range [1; 1] i -> i = [0; 0]).
  { intros k Hk. inversion_clear Hk as [|a ? k' ? Ha Hk']. inversion_clear Hk' as [|b ? k'' ? Hb Hk'']. inversion_clear Hk''. f_equal; [lia|]. f_equal. lia. }
  rewrite (Ii _ Hi) in E. rewrite (Ii _ Hi') in E'. rewrite E' in E. clear - E.
  assert (X : reference (byte0 (width_of 2)) ser_file [0; 0] [middle (byte0 (width_of 2)) ser_file 0 3 2; middle (byte0 (width_of 2)) ser_file 1 3 2] = [(2/3)%R; (2/3)%R]).
  { unfold reference, middle, edge, low, high, cells_along, byte0. cbn. f_equal; [lra|]. f_equal. lra. }
  rewrite X in E.
  assert (C1 : coefficients (byte0 (width_of 2)) ser_file it_d2_tensor_o2 0 [0; 0] = repeat 0%R 9) by reflexivity.
  assert (C2 : coefficients (byte0 (width_of 2)) ser_file it_d2_ser_o3 0 [0; 0] = repeat 0%R 11 ++ [1%R]) by reflexivity.
  rewrite C1, C2 in E. unfold expansion in E. cbn [repeat app combine it_d2_tensor_o2 it_d2_ser_o3 fold_right fst snd] in E.
  rewrite !Rmult_0_l, !Rplus_0_l, Rplus_0_r, Rmult_1_l in E. revert E. cbn [evalR nth]. unfold lit. cbn [pow]. lra.
Qed.
Print Assumptions C120_flux_metadata_refuted.
