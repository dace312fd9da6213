(** * C37-C39: primitive variables of fluid data. *)
From Coq Require Import String Ascii List Arith ZArith Bool Lia Reals Lra.
From Verif Require Import Prelude PreludeFacts NdArray Ev_Model Tools_Arr Tools_Model Tools_Proofs Tools_Proofs2.
Import ListNotations.
Open Scope list_scope.
Open Scope nat_scope.

(** ** Specification

    A fluid: density, velocity, magnetic field, and a symmetric pressure tensor
    (or a scalar pressure) as functions of the cell. *)
Record fluid := mk_fluid {
  rho : list nat -> R;
  ux : list nat -> R; uy : list nat -> R; uz : list nat -> R;
  pr : list nat -> R;                       (* scalar pressure *)
  pxx : list nat -> R; pxy : list nat -> R; pxz : list nat -> R;
  pyy : list nat -> R; pyz : list nat -> R; pzz : list nat -> R;
  bx : list nat -> R; by_ : list nat -> R; bz : list nat -> R }.

Section Fluid.
  Open Scope R_scope.
  Definition u2 (s : fluid) x := (ux s x)^2 + (uy s x)^2 + (uz s x)^2.
  Definition b2 (s : fluid) x := (bx s x)^2 + (by_ s x)^2 + (bz s x)^2.
  Definition third (s : fluid) x := (pxx s x + pyy s x + pzz s x) / 3.

  (** The conserved variables of the three systems of equations. *)
  Definition euler_cons (gamma : R) (s : fluid) (x : list nat) : list R :=
    [rho s x; rho s x * ux s x; rho s x * uy s x; rho s x * uz s x;
     pr s x / (gamma - 1) + rho s x * u2 s x / 2].
  Definition tenmoment_cons (s : fluid) (x : list nat) : list R :=
    [rho s x; rho s x * ux s x; rho s x * uy s x; rho s x * uz s x;
     rho s x * ux s x * ux s x + pxx s x; rho s x * ux s x * uy s x + pxy s x; rho s x * ux s x * uz s x + pxz s x;
     rho s x * uy s x * uy s x + pyy s x; rho s x * uy s x * uz s x + pyz s x; rho s x * uz s x * uz s x + pzz s x].
  Definition mhd_cons (gamma mu0 : R) (s : fluid) (x : list nat) : list R :=
    [rho s x; rho s x * ux s x; rho s x * uy s x; rho s x * uz s x;
     pr s x / (gamma - 1) + rho s x * u2 s x / 2 + b2 s x / (2 * mu0); bx s x; by_ s x; bz s x].

  (** What each variable name means. *)
  Definition vel (s : fluid) x (j : nat) : R := match j with O => ux s x | 1%nat => uy s x | _ => uz s x end.
  Definition means (gamma : R) (p : list nat -> R) (s : fluid) (name : string) : option (nat * (list nat -> nat -> R)) :=
    (if name =? "density" then Some (1%nat, fun x _ => rho s x)
     else if name =? "xvel" then Some (1%nat, fun x _ => ux s x)
     else if name =? "yvel" then Some (1%nat, fun x _ => uy s x)
     else if name =? "zvel" then Some (1%nat, fun x _ => uz s x)
     else if name =? "vel" then Some (3%nat, vel s)
     else if name =? "pressure" then Some (1%nat, fun x _ => p x)
     else if name =? "temp" then Some (1%nat, fun x _ => p x / rho s x)
     else if name =? "sound" then Some (1%nat, fun x _ => sqrt (gamma * p x / rho s x))
     else if name =? "mach" then Some (1%nat, fun x _ => sqrt (u2 s x) / sqrt (gamma * p x / rho s x))
     else None)%string.
  Definition means_ke (s : fluid) (name : string) : option (nat * (list nat -> nat -> R)) :=
    if (name =? "ke")%string then Some (1%nat, fun x _ => rho s x * u2 s x / 2) else None.
  Definition means_p (s : fluid) (name : string) : option (nat * (list nat -> nat -> R)) :=
    (if name =? "pxx" then Some (1%nat, fun x _ => pxx s x) else if name =? "pxy" then Some (1%nat, fun x _ => pxy s x)
     else if name =? "pxz" then Some (1%nat, fun x _ => pxz s x) else if name =? "pyy" then Some (1%nat, fun x _ => pyy s x)
     else if name =? "pyz" then Some (1%nat, fun x _ => pyz s x) else if name =? "pzz" then Some (1%nat, fun x _ => pzz s x)
     else None)%string.
  Definition means_B (mu0 : R) (s : fluid) (name : string) : option (nat * (list nat -> nat -> R)) :=
    (if name =? "Bx" then Some (1%nat, fun x _ => bx s x) else if name =? "By" then Some (1%nat, fun x _ => by_ s x)
     else if name =? "Bz" then Some (1%nat, fun x _ => bz s x)
     else if name =? "Bi" then Some (3%nat, fun x j => match j with O => bx s x | 1%nat => by_ s x | _ => bz s x end)
     else if name =? "magpressure" then Some (1%nat, fun x _ => b2 s x / (2 * mu0))
     else None)%string.

  (** The first components of every cell are [c x]. *)
  Definition stores (cells : list nat) (n : nat) (v : arr) (c : list nat -> list R) : Prop :=
    exists f, shows cells n v f /\
      forall x, in_range cells x -> (length (c x) <= n)%nat /\ forall j, (j < length (c x))%nat -> f x j = nth j (c x) 0.
End Fluid.

Lemma stores_use cells n v c L :
  stores cells n v c -> (forall x, length (c x) = L) -> exists f, shows cells n v f /\
    (forall x j, in_range cells x -> j < L -> f x j = nth j (c x) 0%R) /\ (forall x, in_range cells x -> L <= n).
Proof.
  intros (f & Sf & H) HL. exists f. split; [exact Sf|]. split.
  - intros x j Hx Hj. apply H; [exact Hx|]. now rewrite HL.
  - intros x Hx. specialize (H x Hx). rewrite HL in H. apply H.
Qed.

Open Scope R_scope.

Lemma speed2_rho f x r a b c :
  r <> 0 -> f x 0%nat = r -> f x 1%nat = r * a -> f x 2%nat = r * b -> f x 3%nat = r * c ->
  speed2 f x = a ^ 2 + b ^ 2 + c ^ 2.
Proof. intros Hr E0 E1 E2 E3. unfold speed2. rewrite E0, E1, E2, E3. field. exact Hr. Qed.

Ltac name_cases H :=
  repeat match type of H with
  | context [if (?a =? ?b)%string then _ else _] =>
      destruct (String.eqb_spec a b) as [->|?]; [injection H as <- <-|]
  end; try discriminate H.

Section Common.
  Context (cells : list nat) (n : nat) (v : arr) (f : list nat -> nat -> R) (s : fluid) (gamma : R).
  Context (Sf : shows cells n v f) (Hn : (4 <= n)%nat).
  Context (Hr : forall x, in_range cells x -> rho s x <> 0).
  Context (E0 : forall x, in_range cells x -> f x 0%nat = rho s x).
  Context (E1 : forall x, in_range cells x -> f x 1%nat = rho s x * ux s x).
  Context (E2 : forall x, in_range cells x -> f x 2%nat = rho s x * uy s x).
  Context (E3 : forall x, in_range cells x -> f x 3%nat = rho s x * uz s x).

  Lemma c_density : yields (get_density v) cells 1 (fun x _ => rho s x).
  Proof using All. eapply yields_ext; [eapply y_density; [exact Sf|lia]|]. intros. cbv beta. auto. Qed.
  Lemma c_vx : yields (get_vx v) cells 1 (fun x _ => ux s x).
  Proof using All. eapply yields_ext; [eapply y_v; [exact Sf|lia]|]. intros x j Hx Hj. cbv beta. rewrite E0, E1 by auto. field. auto. Qed.
  Lemma c_vy : yields (get_vy v) cells 1 (fun x _ => uy s x).
  Proof using All. eapply yields_ext; [eapply y_v; [exact Sf|lia]|]. intros x j Hx Hj. cbv beta. rewrite E0, E2 by auto. field. auto. Qed.
  Lemma c_vz : yields (get_vz v) cells 1 (fun x _ => uz s x).
  Proof using All. eapply yields_ext; [eapply y_v; [exact Sf|lia]|]. intros x j Hx Hj. cbv beta. rewrite E0, E3 by auto. field. auto. Qed.
  Lemma c_vi : yields (get_vi v) cells 3 (vel s).
  Proof using All.
    eapply yields_ext; [eapply y_vi; [exact Sf|lia]|]. intros x j Hx Hj. cbv beta. rewrite E0 by auto.
    destruct j as [|[|[|j]]]; try lia; cbn [vel]; [rewrite E1 by auto|rewrite E2 by auto|rewrite E3 by auto]; field; auto.
  Qed.
  Lemma c_speed2 x : in_range cells x -> speed2 f x = u2 s x.
  Proof using All. intros Hx. unfold u2. eapply speed2_rho; [apply (Hr x Hx)|..]; auto. Qed.

  Lemma c_temp o p : yields (get_p gamma o v) cells 1 (fun x _ => p x) -> yields (get_temp gamma o v) cells 1 (fun x _ => p x / rho s x).
  Proof using All.
    intros Y. eapply yields_ext; [eapply y_temp; [exact Sf|lia|exact Y]|]. intros. cbv beta. rewrite E0 by auto. reflexivity.
  Qed.
  Lemma c_sound o p : yields (get_p gamma o v) cells 1 (fun x _ => p x) ->
    yields (get_sound gamma o v) cells 1 (fun x _ => sqrt (gamma * p x / rho s x)).
  Proof using All.
    intros Y. eapply yields_ext; [eapply y_sound; [exact Sf|lia|exact Y]|]. intros. cbv beta. rewrite E0 by auto. reflexivity.
  Qed.
  Lemma c_mach o p : yields (get_p gamma o v) cells 1 (fun x _ => p x) ->
    yields (get_mach gamma o v) cells 1 (fun x _ => sqrt (u2 s x) / sqrt (gamma * p x / rho s x)).
  Proof using All.
    intros Y. eapply yields_ext; [eapply y_mach; [exact Sf|lia|exact Y]|]. intros. cbv beta.
    rewrite E0, c_speed2 by auto. reflexivity.
  Qed.
End Common.

(** ** C37 *)
Definition orelse {A} (a b : option A) : option A := match a with Some _ => a | None => b end.

Theorem C37_recovered gamma cells n v s :
  (5 <= n)%nat -> stores cells n v (euler_cons gamma s) -> gamma <> 1 ->
  (forall x, in_range cells x -> 0 < rho s x) ->
  forall name m g, orelse (means gamma (pr s) s name) (means_ke s name) = Some (m, g) ->
  exists F, euler_var gamma name = Some F /\ yields (F v) cells m g.
Proof.
  intros Hn St Hg Hr name m g Hm.
  destruct (stores_use cells n v _ 5 St ltac:(reflexivity)) as (f & Sf & E & _).
  assert (E0 : forall x, in_range cells x -> f x 0%nat = rho s x) by (intros; now rewrite (E x 0%nat) by (auto; lia)).
  assert (E1 : forall x, in_range cells x -> f x 1%nat = rho s x * ux s x) by (intros; now rewrite (E x 1%nat) by (auto; lia)).
  assert (E2 : forall x, in_range cells x -> f x 2%nat = rho s x * uy s x) by (intros; now rewrite (E x 2%nat) by (auto; lia)).
  assert (E3 : forall x, in_range cells x -> f x 3%nat = rho s x * uz s x) by (intros; now rewrite (E x 3%nat) by (auto; lia)).
  assert (E4 : forall x, in_range cells x -> f x 4%nat = pr s x / (gamma - 1) + rho s x * u2 s x / 2)
    by (intros; now rewrite (E x 4%nat) by (auto; lia)).
  assert (Hr' : forall x, in_range cells x -> rho s x <> 0) by (intros x Hx; specialize (Hr x Hx); lra).
  assert (Hg' : gamma - 1 <> 0) by lra.
  assert (Hn4 : (4 <= n)%nat) by lia.
  assert (Y : yields (get_p gamma (Some 5%nat) v) cells 1 (fun x _ => pr s x)).
  { eapply yields_ext; [eapply y_p5; [exact Sf|lia]|]. intros x j Hx Hj. cbv beta.
    rewrite (c_speed2 cells n v f s gamma) by auto. rewrite E0, E4 by auto. field. exact Hg'. }
  unfold means, means_ke in Hm.
  destruct (String.eqb_spec name "density") as [->|?].
  { injection Hm as <- <-. eexists. split; [reflexivity|]. apply (c_density cells n v f s gamma); auto. }
  destruct (String.eqb_spec name "xvel") as [->|?].
  { injection Hm as <- <-. eexists. split; [reflexivity|]. apply (c_vx cells n v f s gamma); auto. }
  destruct (String.eqb_spec name "yvel") as [->|?].
  { injection Hm as <- <-. eexists. split; [reflexivity|]. apply (c_vy cells n v f s gamma); auto. }
  destruct (String.eqb_spec name "zvel") as [->|?].
  { injection Hm as <- <-. eexists. split; [reflexivity|]. apply (c_vz cells n v f s gamma); auto. }
  destruct (String.eqb_spec name "vel") as [->|?].
  { injection Hm as <- <-. eexists. split; [reflexivity|]. apply (c_vi cells n v f s gamma); auto. }
  destruct (String.eqb_spec name "pressure") as [->|?].
  { injection Hm as <- <-. eexists. split; [reflexivity|]. exact Y. }
  destruct (String.eqb_spec name "temp") as [->|?].
  { injection Hm as <- <-. eexists. split; [reflexivity|]. eapply (c_temp cells n v f s gamma); eauto. }
  destruct (String.eqb_spec name "sound") as [->|?].
  { injection Hm as <- <-. eexists. split; [reflexivity|]. eapply (c_sound cells n v f s gamma); eauto. }
  destruct (String.eqb_spec name "mach") as [->|?].
  { injection Hm as <- <-. eexists. split; [reflexivity|]. eapply (c_mach cells n v f s gamma); eauto. }
  cbn [orelse] in Hm. destruct (String.eqb_spec name "ke") as [->|?]; [|discriminate].
  injection Hm as <- <-. eexists. split; [reflexivity|].
  eapply yields_ext; [eapply y_ke5; [exact Sf|lia]|]. intros x j Hx Hj. cbv beta.
  rewrite (c_speed2 cells n v f s gamma) by auto. rewrite E0, E4 by auto. field. exact Hg'.
Qed.

(** Conversely the stored values are the conserved variables of what is
    returned: nothing is lost. *)
Theorem C37_faithful gamma cells n v f :
  (5 <= n)%nat -> shows cells n v f -> gamma <> 1 -> (forall x, in_range cells x -> f x 0%nat <> 0) ->
  exists s,
    yields (get_density v) cells 1 (fun x _ => rho s x) /\
    yields (get_vi v) cells 3 (vel s) /\
    yields (get_p gamma (Some 5%nat) v) cells 1 (fun x _ => pr s x) /\
    forall x j, in_range cells x -> (j < 5)%nat -> f x j = nth j (euler_cons gamma s x) 0.
Proof.
  intros Hn Sf Hg Hr.
  exists (mk_fluid (fun x => f x 0%nat) (fun x => f x 1%nat / f x 0%nat) (fun x => f x 2%nat / f x 0%nat) (fun x => f x 3%nat / f x 0%nat)
            (fun x => (gamma - 1) * (f x 4%nat - 1 / 2 * f x 0%nat * speed2 f x))
            (fun _ => 0) (fun _ => 0) (fun _ => 0) (fun _ => 0) (fun _ => 0) (fun _ => 0) (fun _ => 0) (fun _ => 0) (fun _ => 0)).
  split; [eapply y_density; [exact Sf|lia]|].
  split. { eapply yields_ext; [eapply y_vi; [exact Sf|lia]|]. intros x j Hx Hj. destruct j as [|[|[|j]]]; try lia; reflexivity. }
  split; [eapply y_p5; [exact Sf|lia]|].
  intros x j Hx Hj. specialize (Hr x Hx). unfold euler_cons, u2, speed2. cbn [rho ux uy uz pr].
  destruct j as [|[|[|[|[|j]]]]]; try lia; cbn [nth]; field; try (split; [exact Hr|lra]); try exact Hr.
Qed.

(** The number of moments given by the user or guessed from five components
    makes no difference; other component counts are refused. *)
Theorem C37_guess gamma cells n v f :
  shows cells n v f ->
  (n = 5%nat -> get_p gamma None v = get_p gamma (Some 5%nat) v /\ get_ke gamma None v = get_ke gamma (Some 5%nat) v) /\
  (n = 10%nat -> get_p gamma None v = get_p gamma (Some 10%nat) v /\ get_ke gamma None v = get_ke gamma (Some 10%nat) v) /\
  (n <> 5%nat -> n <> 10%nat -> get_p gamma None v = Err ValueError /\ get_ke gamma None v = Err ValueError).
Proof.
  intros Sf. pose proof (moments_none cells n v f Sf) as M. split; [|split].
  - intros ->. cbn in M. split; [apply get_p_none|apply get_ke_none]; exact M.
  - intros ->. cbn in M. split; [apply get_p_none|apply get_ke_none]; exact M.
  - intros N5 N10. destruct (Nat.eqb_spec n 5); [congruence|]. destruct (Nat.eqb_spec n 10); [congruence|].
    unfold get_p, get_ke. rewrite M. auto.
Qed.

(** A missing component is reported, never read from somewhere else. *)
Theorem C37_missing gamma cells n v f :
  shows cells n v f ->
  ((n <= 0)%nat -> get_density v = Err IndexError) /\
  ((n <= 1)%nat -> get_vx v = Err IndexError) /\ ((n <= 2)%nat -> get_vy v = Err IndexError) /\
  ((n <= 3)%nat -> get_vz v = Err IndexError) /\ ((n <= 4)%nat -> get_p gamma (Some 5%nat) v = Err IndexError).
Proof.
  intros Sf. pose proof Sf as (_ & S & _).
  assert (D : (n <= 0)%nat -> get_density v = Err IndexError) by (intros; eapply col_err; [exact S|lia]).
  assert (V : forall k, (1 <= k)%nat -> (n <= k)%nat -> get_v k v = Err IndexError).
  { intros k K1 Hk. unfold get_v. destruct (Nat.eq_dec n 0) as [Z|Z]; [rewrite D by lia; reflexivity|].
    destruct (y_density cells n v f Sf ltac:(lia)) as (w & -> & _). cbn [bind].
    rewrite (col_err k v cells n) by (auto; lia). reflexivity. }
  split; [exact D|]. split; [apply (V 1%nat); lia|]. split; [apply (V 2%nat); lia|]. split; [apply (V 3%nat); lia|].
  intros H. unfold get_p. cbn [moments bind Nat.eqb].
  destruct (Nat.eq_dec n 0) as [Z|Z]; [rewrite D by lia; reflexivity|].
  destruct (y_density cells n v f Sf ltac:(lia)) as (w & -> & _). cbn [bind].
  unfold vsq, get_vx, get_vy, get_vz.
  destruct (Nat.leb_spec n 1); [rewrite (V 1%nat) by lia; reflexivity|].
  destruct (y_v cells n v f Sf 1 ltac:(lia)) as (w1 & -> & K1). cbn [bind].
  destruct (Nat.leb_spec n 2); [rewrite (V 2%nat) by lia; reflexivity|].
  destruct (y_v cells n v f Sf 2 ltac:(lia)) as (w2 & -> & K2). cbn [bind].
  destruct (Nat.leb_spec n 3); [rewrite (V 3%nat) by lia; reflexivity|].
  destruct (y_v cells n v f Sf 3 ltac:(lia)) as (w3 & -> & K3). cbn [bind].
  assert (Q : yields (let* s := add (sq w1) (sq w2) in add s (sq w3)) cells 1
     (fun x j => f x 1%nat / f x 0%nat * (f x 1%nat / f x 0%nat) + f x 2%nat / f x 0%nat * (f x 2%nat / f x 0%nat)
                 + f x 3%nat / f x 0%nat * (f x 3%nat / f x 0%nat))).
  { eapply yields_ext; [ysolve|]. intros. reflexivity. }
  destruct Q as (q & -> & _). cbn [bind]. rewrite (col_err 4 v cells n) by (auto; lia). reflexivity.
Qed.

(** ** C38 *)
Theorem C38_recovered gamma cells n v s :
  (10 <= n)%nat -> stores cells n v (tenmoment_cons s) ->
  (forall x, in_range cells x -> 0 < rho s x) ->
  forall name m g, orelse (orelse (means gamma (third s) s name) (means_ke s name)) (means_p s name) = Some (m, g) ->
  exists F, tenmoment_var gamma name = Some F /\ yields (F v) cells m g.
Proof.
  intros Hn St Hr name m g Hm.
  destruct (stores_use cells n v _ 10 St ltac:(reflexivity)) as (f & Sf & E & _).
  assert (E0 : forall x, in_range cells x -> f x 0%nat = rho s x) by (intros; now rewrite (E x 0%nat) by (auto; lia)).
  assert (E1 : forall x, in_range cells x -> f x 1%nat = rho s x * ux s x) by (intros; now rewrite (E x 1%nat) by (auto; lia)).
  assert (E2 : forall x, in_range cells x -> f x 2%nat = rho s x * uy s x) by (intros; now rewrite (E x 2%nat) by (auto; lia)).
  assert (E3 : forall x, in_range cells x -> f x 3%nat = rho s x * uz s x) by (intros; now rewrite (E x 3%nat) by (auto; lia)).
  assert (E4 := fun x Hx => E x 4%nat Hx ltac:(lia)). assert (E5 := fun x Hx => E x 5%nat Hx ltac:(lia)).
  assert (E6 := fun x Hx => E x 6%nat Hx ltac:(lia)). assert (E7 := fun x Hx => E x 7%nat Hx ltac:(lia)).
  assert (E8 := fun x Hx => E x 8%nat Hx ltac:(lia)). assert (E9 := fun x Hx => E x 9%nat Hx ltac:(lia)).
  cbn [nth tenmoment_cons] in E4, E5, E6, E7, E8, E9.
  assert (Hr' : forall x, in_range cells x -> rho s x <> 0) by (intros x Hx; specialize (Hr x Hx); lra).
  assert (Hn4 : (4 <= n)%nat) by lia.
  assert (Y : yields (get_p gamma (Some 10%nat) v) cells 1 (fun x _ => third s x)).
  { eapply yields_ext; [eapply y_p10; [exact Sf|lia|lia]|]. intros x j Hx Hj. cbv beta. unfold third.
    rewrite E0, E1, E2, E3, E4, E7, E9 by auto. field. auto. }
  unfold means, means_ke, means_p in Hm.
  destruct (String.eqb_spec name "density") as [->|?].
  { injection Hm as <- <-. eexists. split; [reflexivity|]. apply (c_density cells n v f s gamma); auto. }
  destruct (String.eqb_spec name "xvel") as [->|?].
  { injection Hm as <- <-. eexists. split; [reflexivity|]. apply (c_vx cells n v f s gamma); auto. }
  destruct (String.eqb_spec name "yvel") as [->|?].
  { injection Hm as <- <-. eexists. split; [reflexivity|]. apply (c_vy cells n v f s gamma); auto. }
  destruct (String.eqb_spec name "zvel") as [->|?].
  { injection Hm as <- <-. eexists. split; [reflexivity|]. apply (c_vz cells n v f s gamma); auto. }
  destruct (String.eqb_spec name "vel") as [->|?].
  { injection Hm as <- <-. eexists. split; [reflexivity|]. apply (c_vi cells n v f s gamma); auto. }
  destruct (String.eqb_spec name "pressure") as [->|?].
  { injection Hm as <- <-. eexists. split; [reflexivity|]. exact Y. }
  destruct (String.eqb_spec name "temp") as [->|?].
  { injection Hm as <- <-. eexists. split; [reflexivity|]. eapply (c_temp cells n v f s gamma); eauto. }
  destruct (String.eqb_spec name "sound") as [->|?].
  { injection Hm as <- <-. eexists. split; [reflexivity|]. eapply (c_sound cells n v f s gamma); eauto. }
  destruct (String.eqb_spec name "mach") as [->|?].
  { injection Hm as <- <-. eexists. split; [reflexivity|]. eapply (c_mach cells n v f s gamma); eauto. }
  cbn [orelse] in Hm. destruct (String.eqb_spec name "ke") as [->|?].
  { injection Hm as <- <-. eexists. split; [reflexivity|].
    eapply yields_ext; [eapply y_ke10; [exact Sf|lia|lia]|]. intros x j Hx Hj. cbv beta.
    rewrite (c_speed2 cells n v f s gamma) by auto. rewrite E0 by auto. field. }
  cbn [orelse] in Hm.
  assert (P : forall k a b : nat, (k < n)%nat -> (a < n)%nat -> (b < n)%nat -> forall q : list nat -> R,
     (forall x, in_range cells x -> f x k - f x 0%nat * (f x a / f x 0%nat) * (f x b / f x 0%nat) = q x) ->
     yields (get_pab k a b v) cells 1 (fun x _ => q x)).
  { intros k a b Hk Ha Hb q Hq. eapply yields_ext; [eapply y_pab; [exact Sf|lia..]|]. intros x j Hx Hj. cbv beta. auto. }
  destruct (String.eqb_spec name "pxx") as [->|?].
  { injection Hm as <- <-. eexists. split; [reflexivity|]. apply P; [lia..|]. intros x Hx. rewrite E4, E0, E1 by auto. field. auto. }
  destruct (String.eqb_spec name "pxy") as [->|?].
  { injection Hm as <- <-. eexists. split; [reflexivity|]. apply P; [lia..|]. intros x Hx. rewrite E5, E0, E1, E2 by auto. field. auto. }
  destruct (String.eqb_spec name "pxz") as [->|?].
  { injection Hm as <- <-. eexists. split; [reflexivity|]. apply P; [lia..|]. intros x Hx. rewrite E6, E0, E1, E3 by auto. field. auto. }
  destruct (String.eqb_spec name "pyy") as [->|?].
  { injection Hm as <- <-. eexists. split; [reflexivity|]. apply P; [lia..|]. intros x Hx. rewrite E7, E0, E2 by auto. field. auto. }
  destruct (String.eqb_spec name "pyz") as [->|?].
  { injection Hm as <- <-. eexists. split; [reflexivity|]. apply P; [lia..|]. intros x Hx. rewrite E8, E0, E2, E3 by auto. field. auto. }
  destruct (String.eqb_spec name "pzz") as [->|?]; [|discriminate].
  injection Hm as <- <-. eexists. split; [reflexivity|]. apply P; [lia..|]. intros x Hx. rewrite E9, E0, E3 by auto. field. auto.
Qed.

(** The six components in one array. *)
Definition tensor (s : fluid) (x : list nat) (j : nat) : R :=
  nth j [pxx s x; pxy s x; pxz s x; pyy s x; pyz s x; pzz s x] 0.

Theorem C38_tensor gamma cells n v s :
  (10 <= n)%nat -> stores cells n v (tenmoment_cons s) -> (forall x, in_range cells x -> 0 < rho s x) ->
  exists F, tenmoment_var gamma "pressureTensor" = Some F /\
    (ones_first cells = true -> yields (F v) cells 6 (tensor s)) /\
    (ones_first cells = false -> F v = Err ValueError).
Proof.
  intros Hn St Hr. destruct (stores_use cells n v _ 10 St ltac:(reflexivity)) as (f & Sf & E & _).
  eexists. split; [reflexivity|]. split.
  - intros O. eapply yields_ext; [eapply y_pij; [exact Sf|exact Hn|exact O]|].
    intros x j Hx Hj. cbv beta. unfold pab, tensor. assert (Hr' : rho s x <> 0) by (specialize (Hr x Hx); lra).
    assert (E' := fun j => E x j Hx).
    destruct j as [|[|[|[|[|[|j]]]]]]; try lia; cbn [nth]; rewrite !E' by lia; cbn [nth tenmoment_cons]; field; exact Hr'.
  - intros O. eapply pij_err; [exact Sf|exact Hn|exact O].
Qed.

(** [ones_first]: no axis of length one follows a longer one. *)
Lemma ones_first_spec cells :
  ones_first cells = true <-> exists k r, cells = repeat 1%nat k ++ r /\ Forall (fun n => n <> 1%nat) r.
Proof.
  induction cells as [|c cells IH].
  - split; [|reflexivity]. intros _. exists 0%nat, []. split; [reflexivity|constructor].
  - cbn [ones_first]. destruct (Nat.eqb_spec c 1) as [->|Hc].
    + rewrite IH. split.
      * intros (k & r & -> & F). exists (S k), r. auto.
      * intros (k & r & E & F). destruct k as [|k]; cbn [repeat app] in E.
        -- destruct r as [|a r]; [discriminate|]. injection E as <- <-. inversion F; congruence.
        -- injection E as ->. eauto.
    + replace (match c with 1%nat => ones_first cells | _ => forallb (fun n => negb (n =? 1)%nat) (c :: cells) end)
        with (forallb (fun n => negb (n =? 1)%nat) (c :: cells)) by (destruct c as [|[|c]]; congruence).
      rewrite forallb_forall. split.
      * intros H. exists 0%nat, (c :: cells). split; [reflexivity|]. constructor; [exact Hc|]. apply Forall_forall. intros a Ha.
        specialize (H a (or_intror Ha)). destruct (Nat.eqb_spec a 1); [discriminate|assumption].
      * intros (k & r & E & F) a Ha. destruct k as [|k]; cbn [repeat app] in E; [|congruence]. subst r.
        rewrite Forall_forall in F. specialize (F a Ha). destruct (Nat.eqb_spec a 1); [congruence|reflexivity].
Qed.

(** Not every ten-moment data set has a pressure tensor: with two cells along
    the first axis and one along the second the command fails. *)
Theorem C38_tensor_refuted : exists cells v s,
  stores cells 10 v (tenmoment_cons s) /\ (forall x, in_range cells x -> 0 < rho s x) /\
  forall gamma F, tenmoment_var gamma "pressureTensor" = Some F -> F v = Err ValueError.
Proof.
  set (z := fun _ : list nat => 0). set (o := fun _ : list nat => 1).
  set (s := mk_fluid o z z z z o z z o z o z z z).
  exists [2; 1]%nat, (tabulate ([2; 1] ++ [10])%nat (fun i => nth (last i 0%nat) (tenmoment_cons s []) 0)), s.
  assert (St : stores [2; 1]%nat 10 (tabulate ([2; 1] ++ [10])%nat (fun i => nth (last i 0%nat) (tenmoment_cons s []) 0)) (tenmoment_cons s)).
  { eexists. split; [apply shows_tab|]. intros x Hx. split; [cbn [length tenmoment_cons]; lia|].
    intros j Hj. cbv beta. rewrite last_snoc. reflexivity. }
  assert (P : forall x, in_range [2; 1]%nat x -> 0 < rho s x) by (intros; cbn [rho s]; unfold o; lra).
  split; [exact St|]. split; [exact P|]. intros gamma F EF.
  destruct (C38_tensor gamma _ 10 _ s ltac:(lia) St P) as (F' & EF' & _ & H).
  rewrite EF in EF'. injection EF' as ->. apply H. reflexivity.
Qed.

(** ** C39 *)
Theorem C39_recovered gamma mu0 cells n v s :
  (8 <= n)%nat -> stores cells n v (mhd_cons gamma mu0 s) -> gamma <> 1 -> mu0 <> 0 ->
  (forall x, in_range cells x -> 0 < rho s x) ->
  forall name m g, orelse (means gamma (pr s) s name) (means_B mu0 s name) = Some (m, g) ->
  exists F, mhd_var gamma mu0 name = Some F /\ yields (F v) cells m g.
Proof.
  intros Hn St Hg Hmu Hr name m g Hm.
  destruct (stores_use cells n v _ 8 St ltac:(reflexivity)) as (f & Sf & E & _).
  assert (E0 : forall x, in_range cells x -> f x 0%nat = rho s x) by (intros; now rewrite (E x 0%nat) by (auto; lia)).
  assert (E1 : forall x, in_range cells x -> f x 1%nat = rho s x * ux s x) by (intros; now rewrite (E x 1%nat) by (auto; lia)).
  assert (E2 : forall x, in_range cells x -> f x 2%nat = rho s x * uy s x) by (intros; now rewrite (E x 2%nat) by (auto; lia)).
  assert (E3 : forall x, in_range cells x -> f x 3%nat = rho s x * uz s x) by (intros; now rewrite (E x 3%nat) by (auto; lia)).
  assert (E4 := fun x Hx => E x 4%nat Hx ltac:(lia)). assert (E5 := fun x Hx => E x 5%nat Hx ltac:(lia)).
  assert (E6 := fun x Hx => E x 6%nat Hx ltac:(lia)). assert (E7 := fun x Hx => E x 7%nat Hx ltac:(lia)).
  cbn [nth mhd_cons] in E4, E5, E6, E7.
  assert (Hr' : forall x, in_range cells x -> rho s x <> 0) by (intros x Hx; specialize (Hr x Hx); lra).
  assert (Hn4 : (4 <= n)%nat) by lia. assert (Hg' : gamma - 1 <> 0) by lra.
  assert (P : forall x, in_range cells x -> (gamma - 1) * (f x 4%nat - 1 / 2 * f x 0%nat * speed2 f x - 1 / 2 * field2 f x / mu0) = pr s x).
  { intros x Hx. rewrite (c_speed2 cells n v f s gamma) by auto. unfold field2. rewrite E0, E4, E5, E6, E7 by auto. unfold b2. field. auto. }
  unfold means, means_B in Hm.
  destruct (String.eqb_spec name "density") as [->|?].
  { injection Hm as <- <-. eexists. split; [reflexivity|]. apply (c_density cells n v f s gamma); auto. }
  destruct (String.eqb_spec name "xvel") as [->|?].
  { injection Hm as <- <-. eexists. split; [reflexivity|]. apply (c_vx cells n v f s gamma); auto. }
  destruct (String.eqb_spec name "yvel") as [->|?].
  { injection Hm as <- <-. eexists. split; [reflexivity|]. apply (c_vy cells n v f s gamma); auto. }
  destruct (String.eqb_spec name "zvel") as [->|?].
  { injection Hm as <- <-. eexists. split; [reflexivity|]. apply (c_vz cells n v f s gamma); auto. }
  destruct (String.eqb_spec name "vel") as [->|?].
  { injection Hm as <- <-. eexists. split; [reflexivity|]. apply (c_vi cells n v f s gamma); auto. }
  destruct (String.eqb_spec name "pressure") as [->|?].
  { injection Hm as <- <-. eexists. split; [reflexivity|]. eapply yields_ext; [eapply y_mhd_p; [exact Sf|lia]|].
    intros x j Hx Hj. cbv beta. auto. }
  destruct (String.eqb_spec name "temp") as [->|?].
  { injection Hm as <- <-. eexists. split; [reflexivity|]. eapply yields_ext; [eapply y_mhd_temp; [exact Sf|lia]|].
    intros x j Hx Hj. cbv beta. rewrite P, E0 by auto. reflexivity. }
  destruct (String.eqb_spec name "sound") as [->|?].
  { injection Hm as <- <-. eexists. split; [reflexivity|]. eapply yields_ext; [eapply y_mhd_sound; [exact Sf|lia]|].
    intros x j Hx Hj. cbv beta. rewrite P, E0 by auto. reflexivity. }
  destruct (String.eqb_spec name "mach") as [->|?].
  { injection Hm as <- <-. eexists. split; [reflexivity|]. eapply yields_ext; [eapply y_mhd_mach; [exact Sf|lia]|].
    intros x j Hx Hj. cbv beta. rewrite P, E0, (c_speed2 cells n v f s gamma) by auto. reflexivity. }
  cbn [orelse] in Hm.
  destruct (String.eqb_spec name "Bx") as [->|?].
  { injection Hm as <- <-. eexists. split; [reflexivity|]. eapply yields_ext; [eapply yields_col; [exact Sf|lia]|]. intros. cbv beta. auto. }
  destruct (String.eqb_spec name "By") as [->|?].
  { injection Hm as <- <-. eexists. split; [reflexivity|]. eapply yields_ext; [eapply yields_col; [exact Sf|lia]|]. intros. cbv beta. auto. }
  destruct (String.eqb_spec name "Bz") as [->|?].
  { injection Hm as <- <-. eexists. split; [reflexivity|]. eapply yields_ext; [eapply yields_col; [exact Sf|lia]|]. intros. cbv beta. auto. }
  destruct (String.eqb_spec name "Bi") as [->|?].
  { injection Hm as <- <-. eexists. split; [reflexivity|]. unfold get_mhd_Bi.
    assert (L : slice2 n 5 8 = [5; 6; 7]%nat).
    { unfold slice2, adjust_pos. cbn [Z.ltb Z.compare]. rewrite !Z.min_l by lia. reflexivity. }
    pose proof (yields_cols 5 8 v cells n f Sf) as Y. rewrite L in Y. eapply yields_ext; [exact Y|].
    intros x j Hx Hj. cbv beta. cbn [length] in Hj. destruct j as [|[|[|j]]]; try lia; cbn [nth]; auto. }
  destruct (String.eqb_spec name "magpressure") as [->|?]; [|discriminate].
  injection Hm as <- <-. eexists. split; [reflexivity|]. eapply yields_ext; [eapply y_mag_p; [exact Sf|lia]|].
  intros x j Hx Hj. cbv beta. unfold field2. rewrite E5, E6, E7 by auto. unfold b2. field. exact Hmu.
Qed.

(** Energy balance of what is returned, for any stored values. *)
Theorem C39_energy gamma mu0 cells n v f :
  (8 <= n)%nat -> shows cells n v f -> gamma <> 1 -> mu0 <> 0 -> (forall x, in_range cells x -> f x 0%nat <> 0) ->
  exists r ux uy uz p pm : list nat -> R,
    yields (get_density v) cells 1 (fun x _ => r x) /\ yields (get_vx v) cells 1 (fun x _ => ux x) /\
    yields (get_vy v) cells 1 (fun x _ => uy x) /\ yields (get_vz v) cells 1 (fun x _ => uz x) /\
    yields (get_mhd_p gamma mu0 v) cells 1 (fun x _ => p x) /\ yields (get_mhd_mag_p mu0 v) cells 1 (fun x _ => pm x) /\
    forall x, in_range cells x ->
      f x 4%nat = p x / (gamma - 1) + r x * ((ux x)^2 + (uy x)^2 + (uz x)^2) / 2 + pm x /\
      pm x = ((f x 5%nat)^2 + (f x 6%nat)^2 + (f x 7%nat)^2) / (2 * mu0) /\
      f x 1%nat = r x * ux x /\ f x 2%nat = r x * uy x /\ f x 3%nat = r x * uz x.
Proof.
  intros Hn Sf Hg Hmu Hr.
  exists (fun x => f x 0%nat), (fun x => f x 1%nat / f x 0%nat), (fun x => f x 2%nat / f x 0%nat), (fun x => f x 3%nat / f x 0%nat).
  eexists. eexists.
  split; [eapply y_density; [exact Sf|lia]|]. split; [eapply y_v; [exact Sf|lia]|].
  split; [eapply y_v; [exact Sf|lia]|]. split; [eapply y_v; [exact Sf|lia]|].
  split; [eapply y_mhd_p; [exact Sf|lia]|]. split; [eapply y_mag_p; [exact Sf|lia]|].
  intros x Hx. specialize (Hr x Hx). cbv beta. unfold speed2, field2.
  assert (Hg' : gamma - 1 <> 0) by lra.
  split; [field; auto|]. split; [field; auto|]. split; [field; auto|]. split; field; auto.
Qed.

(** ** Examples: one cell with density 2, velocity (1, 2, -1), pressure 3. *)
Definition one_cell (c : list R) : arr := mk_nda [1; length c]%nat c.
Lemma one_cell_stores c n g : length c = n -> (forall x, in_range [1%nat] x -> g x = c) ->
  stores [1%nat] n (one_cell c) g.
Proof.
  intros <- Hg. exists (fun _ j => nth j c 0). split.
  - split; [unfold wf, one_cell, prod; cbn [shape flat fold_right]; lia|]. split; [reflexivity|].
    intros x j Hx Hj. inversion Hx as [|i ? ? ? Hi Hn]; subst. inversion Hn; subst. assert (i = 0%nat) by lia. subst i.
    unfold get, one_cell. cbn [shape flat ravel app]. destruct (Nat.ltb_spec j (length c)); [|lia]. cbn [option_map Nat.ltb Nat.leb].
    rewrite nth_error_nth' with (d := 0) by (unfold prod; cbn; lia). f_equal. f_equal. unfold prod. cbn. lia.
  - intros x Hx. rewrite Hg by exact Hx. auto.
Qed.

Definition ex_fluid : fluid :=
  mk_fluid (fun _ => 2) (fun _ => 1) (fun _ => 2) (fun _ => -1) (fun _ => 3)
    (fun _ => 3) (fun _ => 1) (fun _ => 0) (fun _ => 4) (fun _ => -1) (fun _ => 5) (fun _ => 1) (fun _ => 0) (fun _ => 2).

Example C37_ex : exists w, get_p 2 (Some 5%nat) (one_cell [2; 2; 4; -2; 9]) = Ok w /\ get w [0; 0]%nat = Some 3.
Proof.
  assert (St : stores [1%nat] 5 (one_cell [2; 2; 4; -2; 9]) (euler_cons 2 ex_fluid)).
  { apply one_cell_stores; [reflexivity|]. intros x _. unfold euler_cons, u2, ex_fluid; cbn. repeat (f_equal; try lra). }
  destruct (C37_recovered 2 [1%nat] 5 _ ex_fluid ltac:(lia) St ltac:(lra) ltac:(intros; cbn; lra)
              "pressure" 1 (fun x _ => pr ex_fluid x) eq_refl) as (F & EF & w & Ew & _ & _ & V).
  injection EF as <-. exists w. split; [exact Ew|]. apply (V [0%nat] 0%nat); [repeat constructor; lia|lia].
Qed.

Example C38_ex : exists w, get_pij (one_cell [2; 2; 4; -2; 5; 5; -2; 12; -5; 7]) = Ok w /\ get w [0; 4]%nat = Some (-1).
Proof.
  assert (St : stores [1%nat] 10 (one_cell [2; 2; 4; -2; 5; 5; -2; 12; -5; 7]) (tenmoment_cons ex_fluid)).
  { apply one_cell_stores; [reflexivity|]. intros x _. unfold tenmoment_cons, ex_fluid; cbn. repeat (f_equal; try lra). }
  destruct (C38_tensor 2 [1%nat] 10 _ ex_fluid ltac:(lia) St ltac:(intros; cbn; lra)) as (F & EF & H & _).
  destruct (H eq_refl) as (w & Ew & _ & _ & V).
  injection EF as <-. exists w. split; [exact Ew|]. apply (V [0%nat] 4%nat); [repeat constructor; lia|lia].
Qed.

Example C39_ex : exists w, get_mhd_p 2 1 (one_cell [2; 2; 4; -2; 23 / 2; 1; 0; 2]) = Ok w /\ get w [0; 0]%nat = Some 3.
Proof.
  assert (St : stores [1%nat] 8 (one_cell [2; 2; 4; -2; 23 / 2; 1; 0; 2]) (mhd_cons 2 1 ex_fluid)).
  { apply one_cell_stores; [reflexivity|]. intros x _. unfold mhd_cons, u2, b2, ex_fluid; cbn. repeat (f_equal; try lra). }
  destruct (C39_recovered 2 1 [1%nat] 8 _ ex_fluid ltac:(lia) St ltac:(lra) ltac:(lra) ltac:(intros; cbn; lra)
              "pressure" 1 (fun x _ => pr ex_fluid x) eq_refl) as (F & EF & w & Ew & _ & _ & V).
  injection EF as <-. exists w. split; [exact Ew|]. apply (V [0%nat] 0%nat); [repeat constructor; lia|lia].
Qed.

Print Assumptions C37_recovered. Print Assumptions C37_faithful. Print Assumptions C37_guess. Print Assumptions C37_missing.
Print Assumptions C38_recovered. Print Assumptions C38_tensor. Print Assumptions C38_tensor_refuted.
Print Assumptions C39_recovered. Print Assumptions C39_energy.
