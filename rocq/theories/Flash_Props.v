(** * C50: FLASH blocks are painted at the right place. *)
From Coq Require Import List ZArith QArith Qround Qminmax Bool Lia Lqa.
From Verif Require Import Prelude PreludeFacts Flash_Model.
Import ListNotations.
Open Scope Q_scope.

(** ** Specification *)

Section Spec.
Context {V : Type}.

(** The blocks lie on a lattice with the smallest block size: the size of each
    is a multiple of it, and so is its distance from the corner of the
    domain. *)
Definition on_lattice (lo r c s : Q) : Prop :=
  exists p m : Z, (1 <= m)%Z /\ s == inject_Z m * r /\ c - s / 2 == lo + inject_Z p * r.
Definition smallest (r : Q) (l : list Q) : Prop := (exists x, In x l /\ x == r) /\ forall x, In x l -> r <= x.

(** A point lies in a block, in a cell of a block. *)
Definition in_block (b : block V) (x y : Q) : Prop :=
  (b_x b - b_sx b / 2 <= x /\ x < b_x b + b_sx b / 2) /\ (b_y b - b_sy b / 2 <= y /\ y < b_y b + b_sy b / 2).
Definition in_part (c s : Q) (n i : nat) (x : Q) : Prop :=
  let w := s / inject_Z (Z.of_nat n) in
  c - s / 2 + inject_Z (Z.of_nat i) * w <= x /\ x < c - s / 2 + (inject_Z (Z.of_nat i) + 1) * w.
Definition in_cell (nxb nyb : nat) (b : block V) (i j : nat) (x y : Q) : Prop :=
  (i < nxb)%nat /\ (j < nyb)%nat /\ in_part (b_x b) (b_sx b) nxb i x /\ in_part (b_y b) (b_sy b) nyb j y.

Definition leaf (b : block V) : Prop := b_type b = 1%Z.

(** The centre of a mesh cell and the width of the cells, from the grid. *)
Definition cell_width (lo hi : Q) (n : Z) : Q := node lo hi n 1 - node lo hi n 0.
Definition centre (lo hi : Q) (n k : Z) : Q := (node lo hi n k + node lo hi n (k + 1)) / 2.
End Spec.

(** ** Arithmetic *)

Lemma qmin_spec l r : qmin l = Ok r -> smallest r l.
Proof.
  revert r. induction l as [|x l IH]; intros r H; [discriminate|]. destruct l as [|y l].
  - injection H as <-. split; [exists x; split; [now left|reflexivity]|]. intros z [->|[]]. lra.
  - change (qmin (x :: y :: l)) with (let* z := qmin (y :: l) in Ok (Qmin x z)) in H.
    destruct (qmin (y :: l)) as [z|]; [|discriminate]. cbn [bind] in H. injection H as <-.
    destruct (IH z eq_refl) as ((w & Iw & Ew) & M). destruct (Q.min_spec x z) as [[L E]|[L E]].
    + split; [exists x; split; [now left|now rewrite E]|]. intros u [->|Hu]; rewrite E; [lra|]. specialize (M u Hu). lra.
    + split; [exists w; split; [now right|now rewrite E]|]. intros u [->|Hu]; rewrite E; [lra|]. now apply M.
Qed.
Lemma qmax_spec l r : qmax l = Ok r -> (exists x, In x l /\ x == r) /\ forall x, In x l -> x <= r.
Proof.
  revert r. induction l as [|x l IH]; intros r H; [discriminate|]. destruct l as [|y l].
  - injection H as <-. split; [exists x; split; [now left|reflexivity]|]. intros z [->|[]]. lra.
  - change (qmax (x :: y :: l)) with (let* z := qmax (y :: l) in Ok (Qmax x z)) in H.
    destruct (qmax (y :: l)) as [z|]; [|discriminate]. cbn [bind] in H. injection H as <-.
    destruct (IH z eq_refl) as ((w & Iw & Ew) & M). destruct (Q.max_spec x z) as [[L E]|[L E]].
    + split; [exists w; split; [now right|now rewrite E]|]. intros u [->|Hu]; rewrite E; [lra|]. now apply M.
    + split; [exists x; split; [now left|now rewrite E]|]. intros u [->|Hu]; rewrite E; [lra|]. specialize (M u Hu). lra.
Qed.

Lemma floor_int q z : q == inject_Z z -> Qfloor q = z.
Proof. intros H. rewrite (Qfloor_comp _ _ H). apply Qfloor_Z. Qed.
Lemma ceil_int q z : q == inject_Z z -> Qceiling q = z.
Proof. intros H. rewrite (Qceiling_comp _ _ H). apply Qceiling_Z. Qed.

Lemma injZ_pos z : (0 < z)%Z -> 0 < inject_Z z.
Proof. intros H. change 0 with (inject_Z 0). now rewrite <- Zlt_Qlt. Qed.

(** Points of the lattice of mesh cells against centres of mesh cells. *)
Lemma half_le (r : Q) (n a k : Z) : 0 < r -> (0 < n)%Z ->
  (inject_Z a * (r / inject_Z n) <= (inject_Z k + (1 # 2)) * (r / inject_Z n)) <-> (a <= k)%Z.
Proof.
  intros R N. apply injZ_pos in N. assert (H : 0 < r / inject_Z n) by (apply Qlt_shift_div_l; [exact N|lra]).
  set (h := r / inject_Z n) in *. clearbody h. split; intros G.
  - rewrite Zle_Qle. destruct (Qlt_le_dec (inject_Z k) (inject_Z a)) as [L|L]; [exfalso|exact L].
    rewrite <- Zlt_Qlt in L. assert (L' : (k + 1 <= a)%Z) by lia. rewrite Zle_Qle in L'. rewrite inject_Z_plus in L'.
    change (inject_Z 1) with 1 in L'. nra.
  - rewrite Zle_Qle in G. nra.
Qed.
Lemma half_lt (r : Q) (n a k : Z) : 0 < r -> (0 < n)%Z ->
  ((inject_Z k + (1 # 2)) * (r / inject_Z n) < inject_Z a * (r / inject_Z n)) <-> (k < a)%Z.
Proof.
  intros R N. pose proof (half_le r n a k R N) as H. split; intros G.
  - destruct (Z.lt_ge_cases k a) as [L|L]; [exact L|]. apply H in L. exfalso. lra.
  - destruct (Qlt_le_dec ((inject_Z k + (1 # 2)) * (r / inject_Z n)) (inject_Z a * (r / inject_Z n))) as [L|L]; [exact L|].
    apply H in L. lia.
Qed.

(** ** One axis *)

Section Axis.
Context (n : nat) (r lo hi : Q) (Nn : (0 < n)%nat) (R : 0 < r) (P : Z) (H : hi - lo == inject_Z P * r) (P0 : (0 < P)%Z).

Let nb : Z := Z.of_nat n.
Let nx : Z := Qfloor ((hi - lo) / (r / inject_Z nb)).

Lemma nb_pos : (0 < nb)%Z. Proof. unfold nb. lia. Qed.
Lemma nb_nz : ~ inject_Z nb == 0.
Proof. pose proof (injZ_pos nb nb_pos). lra. Qed.

Lemma nx_eq : nx = (P * nb)%Z.
Proof.
  unfold nx. apply floor_int. rewrite inject_Z_mult, H. field. split; [apply nb_nz|lra].
Qed.

Lemma width_eq : cell_width lo hi nx == r / inject_Z nb.
Proof.
  unfold cell_width, node. rewrite nx_eq, inject_Z_mult, H. change (inject_Z 1) with 1. change (inject_Z 0) with 0.
  field. split; [apply nb_nz|]. pose proof (injZ_pos P P0). lra.
Qed.
Lemma centre_eq k : centre lo hi nx k == lo + (inject_Z k + (1 # 2)) * (r / inject_Z nb).
Proof.
  unfold centre, node. rewrite nx_eq, inject_Z_mult, inject_Z_plus, H. change (inject_Z 1) with 1.
  field. split; [apply nb_nz|]. pose proof (injZ_pos P P0). lra.
Qed.

Context (c s : Q) (p m : Z) (M1 : (1 <= m)%Z) (S : s == inject_Z m * r) (C : c - s / 2 == lo + inject_Z p * r).

Lemma mult_eq : Qceiling (s / r) = m.
Proof. apply ceil_int. rewrite S. field. lra. Qed.
Lemma idx_eq : Qfloor ((c - s / 2 - lo) / r * inject_Z nb) = (p * nb)%Z.
Proof. apply floor_int. rewrite inject_Z_mult, C. field. lra. Qed.

Lemma in_part_iff i k : in_part c s n i (centre lo hi nx k) <-> (p * nb + Z.of_nat i * m <= k < p * nb + (Z.of_nat i + 1) * m)%Z.
Proof.
  unfold in_part. fold nb. rewrite centre_eq.
  assert (A : c - s / 2 + inject_Z (Z.of_nat i) * (s / inject_Z nb) == lo + inject_Z (p * nb + Z.of_nat i * m) * (r / inject_Z nb)).
  { rewrite C, S, inject_Z_plus, !inject_Z_mult. field. apply nb_nz. }
  assert (B : c - s / 2 + (inject_Z (Z.of_nat i) + 1) * (s / inject_Z nb) == lo + inject_Z (p * nb + (Z.of_nat i + 1) * m) * (r / inject_Z nb)).
  { rewrite C, S, inject_Z_plus, !inject_Z_mult, inject_Z_plus. change (inject_Z 1) with 1. field. apply nb_nz. }
  rewrite A, B. pose proof (half_le r nb (p * nb + Z.of_nat i * m) k R nb_pos) as L1.
  pose proof (half_lt r nb (p * nb + (Z.of_nat i + 1) * m) k R nb_pos) as L2.
  rewrite <- L1, <- L2. lra.
Qed.

(** A cell of the mesh, or the one before, lies in the block. *)
Lemma in_block_iff d k : (c - s / 2 <= centre lo hi nx k - inject_Z d * cell_width lo hi nx /\
                          centre lo hi nx k - inject_Z d * cell_width lo hi nx < c + s / 2) <->
  (p * nb <= k - d < (p + m) * nb)%Z.
Proof.
  rewrite centre_eq, width_eq.
  assert (A : c - s / 2 == lo + inject_Z (p * nb) * (r / inject_Z nb)).
  { rewrite C, inject_Z_mult. field. apply nb_nz. }
  assert (B : c + s / 2 == lo + inject_Z ((p + m) * nb) * (r / inject_Z nb)).
  { transitivity ((c - s / 2) + s); [field|]. rewrite C, S, inject_Z_mult, inject_Z_plus. field. apply nb_nz. }
  assert (D : lo + (inject_Z k + (1 # 2)) * (r / inject_Z nb) - inject_Z d * (r / inject_Z nb) ==
              lo + (inject_Z (k - d) + (1 # 2)) * (r / inject_Z nb)).
  { unfold Zminus. rewrite inject_Z_plus, inject_Z_opp. field. apply nb_nz. }
  rewrite A, B, D. pose proof (half_le r nb (p * nb) (k - d) R nb_pos) as L1.
  pose proof (half_lt r nb ((p + m) * nb) (k - d) R nb_pos) as L2. rewrite <- L1, <- L2. lra.
Qed.

End Axis.

(** ** Painting *)

Lemma in_slice_iff n a b k : (0 <= a)%Z -> (0 <= b)%Z -> (0 <= k < n)%Z -> in_slice n a b k = true <-> (a <= k < b)%Z.
Proof.
  intros A B K. unfold in_slice, clip. destruct (Z.ltb_spec a 0); [lia|]. destruct (Z.ltb_spec b 0); [lia|].
  rewrite andb_true_iff, Z.leb_le, Z.ltb_lt. lia.
Qed.

Section Paint.
Context {V : Type} (nxb nyb : nat) (nx ny ix iy mx my : Z) (v : nat -> nat -> V) (k l : Z).
Context (Ix : (0 <= ix)%Z) (Iy : (0 <= iy)%Z) (Mx : (1 <= mx)%Z) (My : (1 <= my)%Z) (K : (0 <= k < nx)%Z) (L : (0 <= l < ny)%Z).

Definition hits (i j : nat) : Prop :=
  (ix + Z.of_nat i * mx <= k <= ix + (Z.of_nat i + 1) * mx /\ iy + Z.of_nat j * my <= l <= iy + (Z.of_nat j + 1) * my)%Z.

Lemma paint_hit i j m : hits i j -> paint nx ny ix iy mx my v i j m k l = v i j.
Proof.
  intros [A B]. unfold paint.
  assert (in_slice nx (ix + Z.of_nat i * mx) (ix + (Z.of_nat i + 1) * mx + 1) k = true) as -> by (apply in_slice_iff; nia).
  assert (in_slice ny (iy + Z.of_nat j * my) (iy + (Z.of_nat j + 1) * my + 1) l = true) as -> by (apply in_slice_iff; nia).
  reflexivity.
Qed.
Lemma paint_miss i j m : ~ hits i j -> paint nx ny ix iy mx my v i j m k l = m k l.
Proof.
  intros A. unfold paint. destruct (in_slice nx _ _ k) eqn:E1; [|reflexivity]. destruct (in_slice ny _ _ l) eqn:E2; [|reflexivity].
  exfalso. apply A. apply in_slice_iff in E1; [|nia|nia|lia]. apply in_slice_iff in E2; [|nia|nia|lia]. split; lia.
Qed.

Definition rows (is js : list nat) (m : mesh V) : mesh V :=
  fold_left (fun m i => fold_left (fun m j => paint nx ny ix iy mx my v i j m) js m) is m.

Lemma row_miss i js m : (forall j, In j js -> ~ hits i j) ->
  fold_left (fun m j => paint nx ny ix iy mx my v i j m) js m k l = m k l.
Proof.
  revert m. induction js as [|j js IH]; intros m H; [reflexivity|]. cbn [fold_left]. rewrite IH by (intros; apply H; now right).
  apply paint_miss, H. now left.
Qed.
Lemma rows_miss is js m : (forall i j, In i is -> In j js -> ~ hits i j) -> rows is js m k l = m k l.
Proof.
  revert m. induction is as [|i is IH]; intros m H; [reflexivity|]. unfold rows. cbn [fold_left].
  change (rows is js (fold_left (fun m j => paint nx ny ix iy mx my v i j m) js m) k l = m k l).
  rewrite IH by (intros; apply H; auto; now right). apply row_miss. intros j Hj. apply H; [now left|exact Hj].
Qed.

(** The cell that covers is the last to paint. *)
Lemma rows_hit i j m : (i < nxb)%nat -> (j < nyb)%nat ->
  (ix + Z.of_nat i * mx <= k < ix + (Z.of_nat i + 1) * mx)%Z -> (iy + Z.of_nat j * my <= l < iy + (Z.of_nat j + 1) * my)%Z ->
  rows (seq 0 nxb) (seq 0 nyb) m k l = v i j.
Proof.
  intros Hi Hj A B.
  replace nxb with (i + S (nxb - i - 1))%nat at 1 by lia. rewrite seq_app. cbn [seq Nat.add]. unfold rows. rewrite fold_left_app. cbn [fold_left].
  match goal with |- fold_left _ _ ?m0 k l = _ => change (rows (seq (S i) (nxb - i - 1)) (seq 0 nyb) m0 k l = v i j) end.
  rewrite rows_miss. 2:{ intros i' j' I' _ [X _]. apply in_seq in I'. nia. }
  replace nyb with (j + S (nyb - j - 1))%nat by lia. rewrite seq_app. cbn [seq Nat.add]. rewrite fold_left_app. cbn [fold_left].
  rewrite row_miss. 2:{ intros j' J' [_ X]. apply in_seq in J'. nia. }
  apply paint_hit. split; lia.
Qed.

End Paint.

(** ** The theorems *)

Section Main.
Context {V : Type} (zero : V) (nxb nyb : nat) (bs : list (block V)) (fr : frame V).
Context (rx ry : Q) (Rx : smallest rx (map b_sx bs)) (Ry : smallest ry (map b_sy bs)) (Px : 0 < rx) (Py : 0 < ry).
Context (Ok_ : read_frame zero nxb nyb bs = Ok fr).
Context (Lx : Forall (fun b => on_lattice (fst (f_lo fr)) rx (b_x b) (b_sx b)) bs).
Context (Ly : Forall (fun b => on_lattice (snd (f_lo fr)) ry (b_y b) (b_sy b)) bs).

Notation lx := (fst (f_lo fr)). Notation ly := (snd (f_lo fr)).
Notation ux := (fst (f_hi fr)). Notation uy := (snd (f_hi fr)).
Notation px k := (centre lx ux (f_nx fr) k). Notation py k := (centre ly uy (f_ny fr) k).
Notation wx := (cell_width lx ux (f_nx fr)). Notation wy := (cell_width ly uy (f_ny fr)).

Lemma extent (c s : block V -> Q) lo hi r :
  (forall b, In b bs -> on_lattice lo r (c b) (s b)) -> 0 < r ->
  qmin (map (fun b => c b - s b / 2) bs) = Ok lo -> qmax (map (fun b => c b + s b / 2) bs) = Ok hi ->
  (exists P, (0 < P)%Z /\ hi - lo == inject_Z P * r) /\
  forall b p m, In b bs -> c b - s b / 2 == lo + inject_Z p * r -> s b == inject_Z m * r -> (0 <= p)%Z.
Proof.
  intros L R A B. apply qmin_spec in A. destruct A as [_ A]. apply qmax_spec in B. destruct B as [(x & Ix & Ex) _].
  assert (N : forall b p m, In b bs -> c b - s b / 2 == lo + inject_Z p * r -> s b == inject_Z m * r -> (0 <= p)%Z).
  { intros b p m Ib E1 _. specialize (A (c b - s b / 2) ltac:(apply in_map_iff; eauto)).
    rewrite Zle_Qle. change (inject_Z 0) with 0. destruct (Qlt_le_dec (inject_Z p) 0); [exfalso; nra|assumption]. }
  split; [|exact N]. apply in_map_iff in Ix. destruct Ix as (b & E & Ib).
  destruct (L b Ib) as (p & m & M & S & C). exists (p + m)%Z. split.
  - specialize (N b p m Ib C S). lia.
  - rewrite <- Ex, <- E, inject_Z_plus. 
    assert (Q : c b + s b / 2 == (c b - s b / 2) + s b) by field. rewrite Q, C, S. field.
Qed.

Lemma qmin_unique l r r' : qmin l = Ok r -> smallest r' l -> r == r'.
Proof.
  intros H ((x & Ix & Ex) & M). apply qmin_spec in H. destruct H as ((y & Iy & Ey) & M').
  specialize (M y Iy). specialize (M' x Ix). lra.
Qed.

(** What [read_frame] computes, with the sizes the smallest ones. *)
Lemma frame_eq :
  (0 < nxb)%nat /\ (0 < nyb)%nat /\
  qmin (map (fun b => b_x b - b_sx b / 2) bs) = Ok lx /\ qmin (map (fun b => b_y b - b_sy b / 2) bs) = Ok ly /\
  qmax (map (fun b => b_x b + b_sx b / 2) bs) = Ok ux /\ qmax (map (fun b => b_y b + b_sy b / 2) bs) = Ok uy /\
  exists rx' ry', rx' == rx /\ ry' == ry /\
    f_nx fr = Qfloor ((ux - lx) / (rx' / inject_Z (Z.of_nat nxb))) /\ f_ny fr = Qfloor ((uy - ly) / (ry' / inject_Z (Z.of_nat nyb))) /\
    f_at fr = fold_left (paint_block nxb nyb (f_nx fr) (f_ny fr) lx ly rx' ry') bs (fun _ _ => zero).
Proof.
  unfold read_frame in Ok_.
  destruct (qmin (map b_sx bs)) as [rx'|] eqn:E1; [|discriminate]. cbn [bind] in Ok_.
  destruct (qmin (map b_sy bs)) as [ry'|] eqn:E2; [|discriminate]. cbn [bind] in Ok_.
  destruct (qmin (map (fun b => b_x b - b_sx b / 2) bs)) as [a|] eqn:E3; [|discriminate]. cbn [bind] in Ok_.
  destruct (qmin (map (fun b => b_y b - b_sy b / 2) bs)) as [b|] eqn:E4; [|discriminate]. cbn [bind] in Ok_.
  destruct (qmax (map (fun b => b_x b + b_sx b / 2) bs)) as [c|] eqn:E5; [|discriminate]. cbn [bind] in Ok_.
  destruct (qmax (map (fun b => b_y b + b_sy b / 2) bs)) as [d|] eqn:E6; [|discriminate]. cbn [bind] in Ok_.
  destruct (Qeq_bool rx' 0 || Qeq_bool ry' 0 || (nxb =? 0)%nat || (nyb =? 0)%nat) eqn:E7; [discriminate|].
  destruct (_ || _) in Ok_; [discriminate|]. injection Ok_ as <-. cbn [f_lo f_hi f_nx f_ny f_at fst snd].
  rewrite !orb_false_iff in E7. destruct E7 as [[_ E7] E8]. apply Nat.eqb_neq in E7, E8.
  repeat split; try lia; auto. exists rx', ry'. repeat split; auto; eapply qmin_unique; eauto.
Qed.

(** The number of mesh cells and their width: the mesh has the resolution of
    the smallest blocks and fills the domain. *)
Theorem C50_mesh : (0 < f_nx fr)%Z /\ (0 < f_ny fr)%Z /\ wx == rx / inject_Z (Z.of_nat nxb) /\ wy == ry / inject_Z (Z.of_nat nyb).
Proof.
  destruct frame_eq as (Nx & Ny & A1 & A2 & B1 & B2 & rx' & ry' & Ex & Ey & Fx & Fy & _).
  rewrite Forall_forall in Lx, Ly.
  destruct (extent b_x b_sx lx ux rx Lx Px A1 B1) as [(P1 & P1p & H1) _].
  destruct (extent b_y b_sy ly uy ry Ly Py A2 B2) as [(P2 & P2p & H2) _].
  assert (Gx : f_nx fr = Qfloor ((ux - lx) / (rx / inject_Z (Z.of_nat nxb)))) by (rewrite Fx; apply Qfloor_comp; now rewrite Ex).
  assert (Gy : f_ny fr = Qfloor ((uy - ly) / (ry / inject_Z (Z.of_nat nyb)))) by (rewrite Fy; apply Qfloor_comp; now rewrite Ey).
  split; [rewrite Gx, (nx_eq nxb rx lx ux Nx Px P1 H1); nia|]. split; [rewrite Gy, (nx_eq nyb ry ly uy Ny Py P2 H2); nia|].
  split; [rewrite Gx; now apply (width_eq nxb rx lx ux Nx Px P1)|rewrite Gy; now apply (width_eq nyb ry ly uy Ny Py P2)].
Qed.

(** A mesh cell whose centre lies in a cell of a leaf block gets its value,
    unless a leaf block read later contains it or one of its neighbours at the
    lower left. *)
Theorem C50_cell before b after i j k l :
  bs = (before ++ b :: after)%list -> leaf b ->
  (0 <= k < f_nx fr)%Z -> (0 <= l < f_ny fr)%Z -> in_cell nxb nyb b i j (px k) (py l) ->
  (forall b' dx dy, In b' after -> leaf b' -> (0 <= dx <= 1)%Z -> (0 <= dy <= 1)%Z ->
     ~ in_block b' (px k - inject_Z dx * wx) (py l - inject_Z dy * wy)) ->
  f_at fr k l = b_val b i j.
Proof.
  intros E Lf K L (Hi & Hj & Cx & Cy) Af.
  destruct frame_eq as (Nx & Ny & A1 & A2 & B1 & B2 & rx' & ry' & Ex & Ey & Fx & Fy & D).
  rewrite Forall_forall in Lx, Ly.
  destruct (extent b_x b_sx lx ux rx Lx Px A1 B1) as [(P1 & P1p & H1) N1].
  destruct (extent b_y b_sy ly uy ry Ly Py A2 B2) as [(P2 & P2p & H2) N2].
  assert (Gx : f_nx fr = Qfloor ((ux - lx) / (rx / inject_Z (Z.of_nat nxb)))) by (rewrite Fx; apply Qfloor_comp; now rewrite Ex).
  assert (Gy : f_ny fr = Qfloor ((uy - ly) / (ry / inject_Z (Z.of_nat nyb)))) by (rewrite Fy; apply Qfloor_comp; now rewrite Ey).
  (* one block in integers *)
  assert (PB : forall b' m, In b' bs -> leaf b' -> exists p q mx my, (0 <= p)%Z /\ (0 <= q)%Z /\ (1 <= mx)%Z /\ (1 <= my)%Z /\
     paint_block nxb nyb (f_nx fr) (f_ny fr) lx ly rx' ry' m b' =
     rows (f_nx fr) (f_ny fr) (p * Z.of_nat nxb) (q * Z.of_nat nyb) mx my (b_val b') (seq 0 nxb) (seq 0 nyb) m /\
     (forall i, in_part (b_x b') (b_sx b') nxb i (px k) <-> (p * Z.of_nat nxb + Z.of_nat i * mx <= k < p * Z.of_nat nxb + (Z.of_nat i + 1) * mx)%Z) /\
     (forall j, in_part (b_y b') (b_sy b') nyb j (py l) <-> (q * Z.of_nat nyb + Z.of_nat j * my <= l < q * Z.of_nat nyb + (Z.of_nat j + 1) * my)%Z) /\
     (forall dx dy, in_block b' (px k - inject_Z dx * wx) (py l - inject_Z dy * wy) <->
        (p * Z.of_nat nxb <= k - dx < (p + mx) * Z.of_nat nxb)%Z /\ (q * Z.of_nat nyb <= l - dy < (q + my) * Z.of_nat nyb)%Z)).
  { intros b' m Ib Lb. destruct (Lx b' Ib) as (p & mx & M1 & S1 & C1). destruct (Ly b' Ib) as (q & my & M2 & S2 & C2).
    exists p, q, mx, my. split; [eapply N1; eauto|]. split; [eapply N2; eauto|]. split; [exact M1|]. split; [exact M2|].
    split; [|split; [|split]].
    - unfold paint_block. rewrite Lb. cbn [Z.eqb Pos.eqb]. unfold rows.
      assert (Qceiling (b_sx b' / rx') = mx) as -> by (rewrite (Qceiling_comp _ (b_sx b' / rx)); [now apply mult_eq|now rewrite Ex]).
      assert (Qceiling (b_sy b' / ry') = my) as -> by (rewrite (Qceiling_comp _ (b_sy b' / ry)); [now apply mult_eq|now rewrite Ey]).
      assert (Qfloor ((b_x b' - b_sx b' / 2 - lx) / rx' * inject_Z (Z.of_nat nxb)) = (p * Z.of_nat nxb)%Z) as ->.
      { rewrite (Qfloor_comp _ ((b_x b' - b_sx b' / 2 - lx) / rx * inject_Z (Z.of_nat nxb))); [now apply idx_eq|now rewrite Ex]. }
      assert (Qfloor ((b_y b' - b_sy b' / 2 - ly) / ry' * inject_Z (Z.of_nat nyb)) = (q * Z.of_nat nyb)%Z) as ->.
      { rewrite (Qfloor_comp _ ((b_y b' - b_sy b' / 2 - ly) / ry * inject_Z (Z.of_nat nyb))); [now apply idx_eq|now rewrite Ey]. }
      reflexivity.
    - intros i'. rewrite Gx. now apply (in_part_iff nxb rx lx ux Nx Px P1 H1 P1p).
    - intros j'. rewrite Gy. now apply (in_part_iff nyb ry ly uy Ny Py P2 H2 P2p).
    - intros dx dy. unfold in_block. rewrite Gx, Gy.
      rewrite (in_block_iff nxb rx lx ux Nx Px P1 H1 P1p (b_x b') (b_sx b') p mx S1 C1).
      rewrite (in_block_iff nyb ry ly uy Ny Py P2 H2 P2p (b_y b') (b_sy b') q my S2 C2). reflexivity. }
  rewrite D. rewrite E at 1. rewrite fold_left_app. cbn [fold_left].
  set (m0 := fold_left _ before _). clearbody m0.
  (* later blocks do not touch the cell *)
  assert (Lt : forall m, (forall b', In b' after -> In b' bs) -> fold_left (paint_block nxb nyb (f_nx fr) (f_ny fr) lx ly rx' ry') after m k l = m k l).
  { clear E. induction after as [|b' after IH]; intros m Sub; [reflexivity|]. cbn [fold_left].
    rewrite IH; [| intros; eapply Af; eauto; now right | intros; apply Sub; now right].
    destruct (Z.eq_dec (b_type b') 1) as [T|T].
    - destruct (PB b' m (Sub b' (or_introl eq_refl)) T) as (p & q & mx & my & P0 & Q0 & M1 & M2 & -> & _ & _ & IB).
      apply rows_miss; try nia. intros i' j' Ii Ij [X Y]. apply in_seq in Ii, Ij.
      assert (NN : forall u w mm k' z, (0 <= u < w)%nat -> (1 <= mm)%Z -> (z + Z.of_nat u * mm <= k' <= z + (Z.of_nat u + 1) * mm)%Z ->
                exists d, (0 <= d <= 1)%Z /\ (z <= k' - d < z + mm * Z.of_nat w)%Z).
      { clear. intros u w mm k' z Hu Hm Hk.
        assert (T1 : ((Z.of_nat u + 1) * mm <= Z.of_nat w * mm)%Z) by (apply Z.mul_le_mono_nonneg_r; lia).
        assert (T2 : (0 <= Z.of_nat u * mm)%Z) by nia. assert (T3 : (1 <= mm * Z.of_nat w)%Z) by nia.
        destruct (Z.lt_ge_cases k' (z + mm * Z.of_nat w)); [exists 0%Z|exists 1%Z]; lia. }
      destruct (NN i' nxb mx k _ Ii M1 X) as (dx & Dx & Ex'). destruct (NN j' nyb my l _ Ij M2 Y) as (dy & Dy & Ey').
      apply (Af b' dx dy (or_introl eq_refl) T Dx Dy). apply IB. rewrite !Z.mul_add_distr_r. split; assumption.
    - unfold paint_block. destruct (Z.eqb_spec (b_type b') 1); [contradiction|reflexivity]. }
  rewrite Lt by (intros b' Ib; rewrite E; apply in_or_app; right; now right).
  destruct (PB b m0) as (p & q & mx & my & P0 & Q0 & M1 & M2 & -> & IX & IY & _).
  { rewrite E. apply in_or_app. right. now left. }
  { exact Lf. }
  apply IX in Cx. apply IY in Cy. apply (rows_hit nxb nyb _ _ _ _ mx my (b_val b) k l); auto; nia.
Qed.

(** If leaf blocks do not overlap, every mesh cell outside the first row and
    the first column of its block gets the right value, in any order of the
    blocks. *)
Theorem C50_interior before b after i j k l :
  bs = (before ++ b :: after)%list -> leaf b ->
  (forall b' x y, In b' after -> leaf b' -> in_block b x y -> ~ in_block b' x y) ->
  (0 <= k < f_nx fr)%Z -> (0 <= l < f_ny fr)%Z -> in_cell nxb nyb b i j (px k) (py l) ->
  in_block b (px k - wx) (py l - wy) ->
  f_at fr k l = b_val b i j.
Proof.
  intros E Lf No K L Ce In_. apply (C50_cell before b after i j k l E Lf K L Ce).
  intros b' dx dy Ib Lb Dx Dy. apply No; auto.
  assert (W : 0 < wx /\ 0 < wy).
  { destruct C50_mesh as (_ & _ & W1 & W2). destruct frame_eq as (Nx & Ny & _). rewrite W1, W2.
    split; apply Qlt_shift_div_l; try (apply injZ_pos; lia); lra. }
  destruct Ce as (Hi & Hj & Cx & Cy). unfold in_part in Cx, Cy. destruct In_ as [[I1 I2] [I3 I4]].
  assert (Up : forall c s n i x, (i < n)%nat -> 0 < s -> in_part c s n i x -> x < c + s / 2).
  { clear. intros c s n i x Hi S [_ B]. cbv zeta in B. eapply Qlt_le_trans; [exact B|].
    assert (N : 0 < inject_Z (Z.of_nat n)) by (apply injZ_pos; lia).
    assert (T : inject_Z (Z.of_nat i) + 1 <= inject_Z (Z.of_nat n)).
    { change 1 with (inject_Z 1). rewrite <- inject_Z_plus, <- Zle_Qle. lia. }
    assert (G : (inject_Z (Z.of_nat i) + 1) * (s / inject_Z (Z.of_nat n)) <= s).
    { assert (X : s == inject_Z (Z.of_nat n) * (s / inject_Z (Z.of_nat n))) by (field; lra).
      rewrite X at 2. apply Qmult_le_compat_r; [exact T|]. apply Qle_shift_div_l; [exact N|lra]. }
    assert (Hh : s / 2 + s / 2 == s) by field. set (u := s / 2) in *. clearbody u. lra. }
  assert (Sx : 0 < b_sx b /\ 0 < b_sy b).
  { assert (Ib' : In b bs) by (rewrite E; apply in_or_app; right; now left). rewrite Forall_forall in Lx, Ly.
    destruct (Lx b Ib') as (p & m & M & S & _). destruct (Ly b Ib') as (q & m' & M' & S' & _). rewrite S, S'.
    split; apply Qmult_lt_0_compat; auto; apply injZ_pos; lia. }
  pose proof (Up _ _ _ _ _ Hi (proj1 Sx) Cx) as U1. pose proof (Up _ _ _ _ _ Hj (proj2 Sx) Cy) as U2.
  assert (dx = 0 \/ dx = 1)%Z as [-> | ->] by lia; assert (dy = 0 \/ dy = 1)%Z as [-> | ->] by lia;
    change (inject_Z 0) with 0; change (inject_Z 1) with 1; unfold in_block; lra.
Qed.

End Main.

(** The order matters: of two blocks side by side, the right one read first,
    the left one also paints the first column of the right one. *)
Definition ex_block (x : Q) (v : nat) : block nat := mk_block x (1 # 2) 1 1 1 (fun _ _ => v).
Theorem C50_order_refuted :
  exists fr, read_frame 0%nat 2 2 [ex_block (3 # 2) 7; ex_block (1 # 2) 5] = Ok fr /\
    in_cell 2 2 (ex_block (3 # 2) 7) 0 0 (centre (fst (f_lo fr)) (fst (f_hi fr)) (f_nx fr) 2) (centre (snd (f_lo fr)) (snd (f_hi fr)) (f_ny fr) 0) /\
    f_at fr 2%Z 0%Z <> b_val (ex_block (3 # 2) 7) 0 0.
Proof.
  eexists. split; [vm_compute; reflexivity|]. split; [|vm_compute; discriminate].
  repeat split; vm_compute; congruence || lia || discriminate.
Qed.

(** Leaf and coarser blocks: a block of size two and two of size one to its
    right; in this order all cells are right. *)
Definition ex_blocks : list (block nat) :=
  [mk_block 2 1 4 2 2 (fun _ _ => 0%nat);
   mk_block 1 1 2 2 1 (fun i j => 10 + 2 * i + j)%nat;
   mk_block (5 # 2) (1 # 2) 1 1 1 (fun i j => 20 + 2 * i + j)%nat;
   mk_block (5 # 2) (3 # 2) 1 1 1 (fun i j => 30 + 2 * i + j)%nat;
   mk_block (7 # 2) (1 # 2) 1 1 1 (fun i j => 40 + 2 * i + j)%nat;
   mk_block (7 # 2) (3 # 2) 1 1 1 (fun i j => 50 + 2 * i + j)%nat].
Example C50_ex :
  exists fr, read_frame 0%nat 2 2 ex_blocks = Ok fr /\ f_nx fr = 8%Z /\ f_ny fr = 4%Z /\
    map (fun k => map (fun l => f_at fr (Z.of_nat k) (Z.of_nat l)) (seq 0 4)) (seq 0 8) =
    [[10; 10; 11; 11]; [10; 10; 11; 11]; [12; 12; 13; 13]; [12; 12; 13; 13];
     [20; 21; 30; 31]; [22; 23; 32; 33]; [40; 41; 50; 51]; [42; 43; 52; 53]]%nat /\
    smallest 1 (map b_sx ex_blocks) /\
    Forall (fun b => on_lattice (fst (f_lo fr)) 1 (b_x b) (b_sx b)) ex_blocks.
Proof.
  eexists. split; [vm_compute; reflexivity|]. split; [reflexivity|]. split; [reflexivity|]. split; [vm_compute; reflexivity|].
  split.
  - split; [exists 1; split; [cbn; tauto|reflexivity]|]. intros x H. cbn in H. 
    repeat (destruct H as [<- | H]; [vm_compute; discriminate|]). destruct H.
  - unfold ex_blocks. repeat apply Forall_cons; try apply Forall_nil; unfold on_lattice; cbn [f_lo fst b_x b_sx];
    [exists 0%Z, 4%Z|exists 0%Z, 2%Z|exists 2%Z, 1%Z|exists 2%Z, 1%Z|exists 3%Z, 1%Z|exists 3%Z, 1%Z];
    (split; [lia|split; vm_compute; reflexivity]).
Qed.

Print Assumptions C50_mesh.
Print Assumptions C50_cell.
Print Assumptions C50_interior.
Print Assumptions C50_order_refuted.
