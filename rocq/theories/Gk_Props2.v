(** * C49: the particle balance. *)
From Coq Require Import String Ascii ZArith List Bool Reals Lia Lra.
From Verif Require Import Prelude PreludeFacts DataSpace_Spec DataSpace_Proofs Gk_Model Gk_Spec Gk_Props Gk_Proofs.
Import ListNotations.
Open Scope string_scope.
Open Scope nat_scope.

(** The pattern with which all blocks are found. *)
Definition all_blocks (o : opts) (sp : string) : string :=
  o_path o ++ "/" ++ o_name o ++ "_b*-" ++ sp ++ "_fdot_integrated_moms.gkyl".

Lemma chosen_pattern fs o sp n :
  chosen fs (all_blocks o sp) (o_multib o) n ->
  chosen fs (prefix_of o ++ sp ++ "_fdot_integrated_moms.gkyl") (o_multib o) n.
Proof.
  unfold prefix_of. destruct (String.eqb_spec (o_multib o) "-10") as [E|E].
  - intros H. rewrite E in *. remember "-10" as m eqn:Em. destruct H as [| |zs L|a b ps Hs|a b c ps Hc Hs]; subst; try discriminate.
    + constructor.
    + now constructor.
    + now constructor.
    + now constructor.
  - now rewrite !append_assoc.
Qed.

Lemma last_seq n : 1 <= n -> last (seq 0 n) 0 = n - 1.
Proof. intros H. destruct n as [|n]; [lia|]. rewrite seq_S, last_last. simpl. lia. Qed.

Lemma seq_nonempty n : 1 <= n -> seq 0 n <> [].
Proof. destruct n; [lia|discriminate]. Qed.

Lemma total_one {A} (f : A -> R) a : total f [a] = f a.
Proof. unfold total. simpl. lra. Qed.

(** The particle loop in the terms of the specification. *)
Lemma particle_sums fs o T n :
  plain o -> 2 <= T -> 1 <= n -> (forall b, b < n -> files_ok fs o T 0 b (o_species o)) ->
  particle_loop fs o (seq 0 n) (Sums None None None None) =
  Ok (Sums (Some (vec T (change fs o 0 n [o_species o]))) (Some (vec T (source fs o 0 n [o_species o])))
           (Some (vec T (flux fs o 0 n [o_species o]))) (Some (part_of fs o T 0 (n - 1) (o_species o)))).
Proof.
  intros P HT Hn G.
  rewrite (particle_loop_ok fs o T (seq 0 n) P HT) with (F := None) (S := None) (B := None) (lastp := None)
    (f0 := fun _ => 0%R) (s0 := fun _ => 0%R) (b0 := fun _ => 0%R); cbn [opt_holds]; auto using seq_nonempty.
  - rewrite last_seq by exact Hn. do 2 f_equal; f_equal; apply vec_ext; intros t _; rewrite Rplus_0_l; apply total_ext; intros b _; now rewrite total_one.
  - intros b Hb. apply in_seq in Hb. apply G. lia.
Qed.

Lemma times_length fs o T c b sp : files_ok fs o T c b sp -> length (times_of fs (fdot_of o b sp)) = T.
Proof.
  intros ((h & E) & G). unfold times_of. rewrite E. apply (G (fdot_of o b sp) h); [now left|exact E].
Qed.

Lemma plot_ok x T f : length x = T -> plot x (vec T f) = Ok tt.
Proof. intros H. unfold plot. now rewrite vec_length, H, Nat.eqb_refl. Qed.

Lemma zero_first T f : 2 <= T -> 0%R :: tl (vec T f) = vec T (fun t => if t =? 0 then 0%R else f t).
Proof.
  intros H. destruct T as [|T]; [lia|]. rewrite vec_tl. unfold vec. cbn [seq List.map Nat.eqb]. f_equal.
  rewrite <- (seq_shift T 0), map_map. reflexivity.
Qed.

Lemma vec_cons T f : 2 <= T -> exists a l, vec T f = a :: l.
Proof. destruct T; [lia|]. unfold vec. simpl. eauto. Qed.

(** The source at time number [t], taken as zero at the start. *)
Definition shown_source fs o c n sps (t : nat) : R := if t =? 0 then 0%R else source fs o c n sps t.

(** The fluxes shown carry the time stamps of all boundaries of the last
    block. *)
Definition flux_times fs o b sp : list (list R) :=
  List.map (fun bd => times_of fs (flux_of o b sp bd)) (filter (fun bd => present fs (flux_of o b sp bd)) six).

Lemma flux_times_eq fs o b sp :
  List.map h_times (flux_files fs (file_name o b sp) six) = flux_times fs o b sp.
Proof.
  unfold flux_times, flux_files. generalize six. intros l. induction l as [|bd l IH]; [reflexivity|].
  cbn [flat_map filter].
  assert (Q : file_name o b sp ++ "_bflux_" ++ bd ++ "_integrated_HamiltonianMoments.gkyl" = flux_of o b sp bd) by (unfold flux_of; apply file_name_app).
  rewrite Q.
  assert (present fs (flux_of o b sp bd) = match f_moms fs (flux_of o b sp bd) with Some _ => true | None => false end) as -> by reflexivity.
  destruct (f_moms fs (flux_of o b sp bd)) as [h|] eqn:E; cbn [app List.map].
  - rewrite IH. f_equal. unfold times_of. now rewrite E.
  - exact IH.
Qed.

(** What the command adds to the data space: change, source and flux summed
    over the chosen number of blocks and all boundaries, and as error the
    source minus the flux minus the change at every time, the source being
    taken as zero at the start.  Source and flux are only shown if the last
    block has such files, with the times found there. *)
Theorem C49_traces fs o T n :
  plain o -> o_rel o = false -> chosen fs (all_blocks o (o_species o)) (o_multib o) n ->
  1 <= n -> 2 <= T -> (forall b, b < n -> files_ok fs o T 0 b (o_species o)) ->
  let sp := o_species o in
  let times := times_of fs (fdot_of o (n - 1) sp) in
  exists fd sr fl er,
    gk_particle_balance fs o =
      Ok (Out "fdot" (GArr times) fd ::
          (if present fs (source_of o (n - 1) sp) then [Out "src" (GArr (times_of fs (source_of o (n - 1) sp))) sr] else []) ++
          (if existsb (fun bd => present fs (flux_of o (n - 1) sp bd)) six then [Out "bflux" (GList (flux_times fs o (n - 1) sp)) fl] else []) ++
          [Out "err" (GArr times) er])%list /\
    holds T (change fs o 0 n [sp]) fd /\ holds T (shown_source fs o 0 n [sp]) sr /\
    holds T (fun t => - flux fs o 0 n [sp] t)%R fl /\
    holds T (fun t => shown_source fs o 0 n [sp] t - flux fs o 0 n [sp] t - change fs o 0 n [sp] t)%R er.
Proof.
  intros P Rl C Hn HT G sp times.
  exists (vec T (change fs o 0 n [sp])), (vec T (shown_source fs o 0 n [sp])), (vec T (fun t => - flux fs o 0 n [sp] t)%R),
    (vec T (fun t => shown_source fs o 0 n [sp] t - flux fs o 0 n [sp] t - change fs o 0 n [sp] t)%R).
  split; [|repeat split; try apply vec_length; intros t Ht; now rewrite vec_nth].
  unfold gk_particle_balance.
  rewrite (chosen_num fs o (o_species o) n) by (apply P || (apply chosen_pattern, C)). cbn [bind].
  rewrite (particle_sums fs o T n P HT Hn G). cbn [bind s_src s_bflux s_fdot s_last need]. rewrite Rl. cbn [negb].
  fold sp.
  destruct (vec_cons T (source fs o 0 n [sp]) HT) as (a & l & E). rewrite E.
  assert (l = tl (vec T (source fs o 0 n [sp]))) as -> by (now rewrite E).
  rewrite zero_first by exact HT. change (fun t => if t =? 0 then 0%R else source fs o 0 n [sp] t) with (shown_source fs o 0 n [sp]).
  cbn [part_of p_time_fdot p_time_src p_time_bflux]. fold times.
  rewrite bcast_vec. cbn [bind]. rewrite bcast_vec. cbn [bind].
  assert (Gl : files_ok fs o T 0 (n - 1) sp) by (apply G; lia).
  assert (Lt : length times = T) by exact (times_length fs o T 0 (n - 1) sp Gl).
  rewrite (plot_ok times T) by exact Lt. cbn [bind].
  rewrite flux_times_eq.
  assert (Es : (match option_map h_times (f_moms fs (source_of o (n - 1) sp)) with Some t => plot t (vec T (shown_source fs o 0 n [sp])) | None => Ok tt end) = Ok tt).
  { destruct (f_moms fs (source_of o (n - 1) sp)) as [h|] eqn:E'; [|reflexivity]. cbn [option_map].
    apply plot_ok. apply (proj2 Gl (source_of o (n - 1) sp) h); [right; now left|exact E']. }
  rewrite Es. cbn [bind].
  assert (Ef : (match flux_times fs o (n - 1) sp with t :: _ => plot t (vec T (flux fs o 0 n [sp])) | [] => Ok tt end) = Ok tt).
  { destruct (flux_times fs o (n - 1) sp) as [|t ts] eqn:E'; [reflexivity|]. apply plot_ok.
    assert (I : In t (flux_times fs o (n - 1) sp)) by (rewrite E'; now left).
    unfold flux_times in I. apply in_map_iff in I. destruct I as (bd & <- & I). apply filter_In in I. destruct I as [I Q].
    unfold present in Q. unfold times_of. destruct (f_moms fs (flux_of o (n - 1) sp bd)) as [h|] eqn:E2; [|discriminate].
    apply (proj2 Gl (flux_of o (n - 1) sp bd) h); [right; right; now apply in_map|exact E2]. }
  rewrite Ef. cbn [bind]. rewrite (plot_ok times T) by exact Lt. cbn [bind].
  f_equal. cbn [app]. f_equal. f_equal.
  - unfold present, times_of. destruct (f_moms fs (source_of o (n - 1) sp)); reflexivity.
  - f_equal. rewrite vec_map.
    assert (B : existsb (fun bd => present fs (flux_of o (n - 1) sp bd)) six = match flux_times fs o (n - 1) sp with [] => false | _ => true end).
    { unfold flux_times. clear. generalize six. intros l. induction l as [|bd l IH]; [reflexivity|]. cbn [existsb filter].
      destruct (present fs (flux_of o (n - 1) sp bd)); [reflexivity|]. exact IH. }
    rewrite B. destruct (flux_times fs o (n - 1) sp); reflexivity.
Qed.

(** The error is zero at a later time exactly if the source makes up for
    change and flux then. *)
Theorem C49_zero fs o T n outs g er :
  plain o -> o_rel o = false -> chosen fs (all_blocks o (o_species o)) (o_multib o) n ->
  1 <= n -> 2 <= T -> (forall b, b < n -> files_ok fs o T 0 b (o_species o)) ->
  gk_particle_balance fs o = Ok outs -> In (Out "err" g er) outs ->
  forall t, 0 < t < T ->
  (nth t er 0 = 0 <-> source fs o 0 n [o_species o] t = change fs o 0 n [o_species o] t + flux fs o 0 n [o_species o] t)%R.
Proof.
  intros P Rl C Hn HT G E I t Ht.
  destruct (C49_traces fs o T n P Rl C Hn HT G) as (fd & sr & fl & er' & E' & _ & _ & _ & H).
  rewrite E in E'. apply (f_equal (fun r => match r with Ok l => l | Err _ => [] end)) in E'. cbv beta iota in E'. subst outs.
  assert (er = er') as ->.
  { cbn [app] in I. destruct I as [I|I]; [discriminate|]. apply in_app_or in I. destruct I as [I|I].
    { revert I. destruct (present fs (source_of o (n - 1) (o_species o))); [|intros []]. intros [I|[]]; discriminate. }
    apply in_app_or in I. destruct I as [I|I].
    { revert I. destruct (existsb (fun bd => present fs (flux_of o (n - 1) (o_species o) bd)) six); [|intros []]. intros [I|[]]; discriminate. }
    destruct I as [I|[]]. now injection I. }
  destruct H as [_ H]. rewrite H by lia. unfold shown_source. destruct (Nat.eqb_spec t 0); [lia|]. lra.
Qed.

(** ** The relative error *)

Lemma starts_b s c : has_char "*" (String c s) = false -> starts_with "_b*" (String c s ++ "_b*-") = false.
Proof.
  intros H. destruct s as [|d [|e s]]; cbn [String.append starts_with] in *.
  - destruct (Ascii.eqb_spec "_" c); [|reflexivity]. reflexivity.
  - destruct (Ascii.eqb "_" c); [|reflexivity]. destruct (Ascii.eqb "b" d); reflexivity.
  - cbn [has_char] in H. destruct (Ascii.eqb_spec "*" e) as [<-|]; [|now rewrite !andb_false_r].
    cbn in H. rewrite !orb_true_r in H. discriminate.
Qed.

Lemma starts_none s : has_char "*" s = false -> starts_with "_b*" s = false.
Proof.
  intros H. destruct s as [|c [|d [|e s]]]; cbn [starts_with has_char] in *; [reflexivity| | |].
  - now rewrite andb_false_r.
  - now rewrite !andb_false_r.
  - destruct (Ascii.eqb_spec "*" e) as [<-|]; [|now rewrite !andb_false_r].
    cbn in H. rewrite !orb_true_r in H. discriminate.
Qed.

Lemma replace_b s : has_char "*" s = false -> replace "_b*" "" (s ++ "_b*-") = s ++ "-".
Proof.
  unfold replace. induction s as [|c s IH]; intros H; [reflexivity|].
  pose proof (starts_b s c H) as S. cbn [String.append] in *. cbn [replace_from]. rewrite S. f_equal. apply IH.
  cbn [has_char] in H. apply orb_false_iff in H. tauto.
Qed.

Lemma replace_b_none s : has_char "*" s = false -> replace "_b*" "" s = s.
Proof.
  unfold replace. induction s as [|c s IH]; intros H; [reflexivity|].
  pose proof (starts_none _ H) as S. cbn [replace_from]. rewrite S. f_equal. apply IH.
  cbn [has_char] in H. apply orb_false_iff in H. tauto.
Qed.

(** The file with the time steps. *)
Definition dt_file (o : opts) : string :=
  match o_dt_file o with
  | Some f => o_path o ++ "/" ++ f
  | None => o_path o ++ "/" ++ o_name o ++ "-dt.gkyl"
  end.

Lemma dt_name_plain o : plain o -> o_dt_file o <> Some "" -> dt_name o = dt_file o.
Proof.
  intros (P & N & _) D. unfold dt_name, dt_file.
  assert (E : replace "_b*" "" (prefix_of o) ++ "dt.gkyl" = o_path o ++ "/" ++ o_name o ++ "-dt.gkyl").
  { unfold prefix_of. destruct (String.eqb (o_multib o) "-10").
    - rewrite replace_b_none.
      + rewrite !append_assoc. reflexivity.
      + rewrite has_char_app, P. change ("/" ++ o_name o ++ "-") with (String "/" (o_name o ++ "-")). cbn [has_char].
        rewrite has_char_app, N. reflexivity.
    - replace (o_path o ++ "/" ++ o_name o ++ "_b*-") with ((o_path o ++ "/" ++ o_name o) ++ "_b*-") by (now rewrite !append_assoc).
      rewrite replace_b; [now rewrite !append_assoc|].
      rewrite has_char_app, P. change ("/" ++ o_name o) with (String "/" (o_name o)). cbn [has_char]. rewrite N. reflexivity. }
  destruct (o_dt_file o) as [f|]; [|exact E].
  destruct (String.eqb_spec f ""); [congruence|reflexivity].
Qed.

(** With [--relative_error] the only result is the error times the time step
    over the particle content at every time after the first. *)
Theorem C49_relative fs o T n dt :
  plain o -> o_rel o = true -> chosen fs (all_blocks o (o_species o)) (o_multib o) n ->
  1 <= n -> 2 <= T -> (forall b, b < n -> files_ok fs o T 0 b (o_species o)) ->
  (forall b, b < n -> exists h, f_moms fs (distf_of o b (o_species o)) = Some h /\ good T 0 h) ->
  o_dt_file o <> Some "" -> f_scal fs (dt_file o) = Some dt ->
  length (t_times dt) = T - 1 -> length (t_vals dt) = T - 1 ->
  let sp := o_species o in
  exists q, gk_particle_balance fs o = Ok [Out "rel_err" (GArr (t_times dt)) q] /\ length q = T - 1 /\
  forall t, t < T - 1 -> content fs o 0 n [sp] (S t) <> 0%R ->
    (nth t q 0 * content fs o 0 n [sp] (S t) =
     (source fs o 0 n [sp] (S t) - flux fs o 0 n [sp] (S t) - change fs o 0 n [sp] (S t)) * nth t (t_vals dt) 0)%R.
Proof.
  intros P Rl C Hn HT G Gd Dn Ed L1 L2 sp.
  exists (vec (T - 1) (fun t => (source fs o 0 n [sp] (S t) - flux fs o 0 n [sp] (S t) - change fs o 0 n [sp] (S t)) * nth t (t_vals dt) 0 / content fs o 0 n [sp] (S t))%R).
  split; [|split; [apply vec_length|]].
  2:{ intros t Ht Hc. rewrite vec_nth by exact Ht. field. exact Hc. }
  unfold gk_particle_balance.
  rewrite (chosen_num fs o (o_species o) n) by (apply P || (apply chosen_pattern, C)). cbn [bind].
  rewrite (particle_sums fs o T n P HT Hn G). cbn [bind s_src s_bflux s_fdot s_last need]. rewrite Rl. cbn [negb].
  rewrite dt_name_plain by assumption. rewrite Ed. fold sp.
  set (names := List.map (fun b => block_prefix o b ++ sp) (seq 0 n)).
  assert (En : names = List.map (fun b => file_name o b sp) (seq 0 n)).
  { unfold names. apply map_ext. intros b. now apply block_prefix_plain. }
  rewrite (distf_loop_ok fs o T 0 names) with (f0 := fun _ => 0%R).
  - cbn [bind need]. destruct T as [|T]; [lia|]. rewrite !vec_tl, bcast_vec. cbn [bind]. rewrite bcast_vec. cbn [bind].
    replace (S T - 1) with T in * by lia.
    rewrite (list_vec (t_vals dt)) at 1. rewrite L2, bcast_vec. cbn [bind]. rewrite bcast_vec. cbn [bind].
    rewrite plot_ok by exact L1. cbn [bind]. do 3 f_equal. apply vec_ext. intros t Ht. f_equal.
    rewrite Rplus_0_l, En. unfold content. f_equal. unfold total at 1. rewrite map_map. apply total_ext. intros b _. rewrite total_one.
    unfold distf_of. now rewrite file_name_app.
  - apply P.
  - exact HT.
  - rewrite En. intros pre Hp. apply in_map_iff in Hp. destruct Hp as (b & <- & Hb). apply in_seq in Hb.
    rewrite file_name_app. apply Gd. lia.
  - cbn. auto.
  - unfold names. destruct n; [lia|discriminate].
Qed.

(** ** What makes it fail *)

Lemma particle_loop_needs fs o : forall bs s r, particle_loop fs o bs s = Ok r -> o_fdot_file o = [] ->
  forall b, In b bs -> exists h, f_moms fs (block_prefix o b ++ o_species o ++ "_fdot_integrated_moms.gkyl") = Some h.
Proof.
  induction bs as [|b bs IH]; intros s r H N x Hx; [destruct Hx|]. cbn [particle_loop] in H.
  destruct (read_part fs o 0 (block_prefix o b ++ o_species o)) as [p|] eqn:E; [|discriminate]. cbn [bind] in H.
  destruct (accumulate_or_assign (s_fdot s) (p_fdot p)); [|discriminate]. cbn [bind] in H.
  destruct (accumulate_or_assign (s_src s) (p_src p)); [|discriminate]. cbn [bind] in H.
  destruct (accumulate_or_assign (s_bflux s) (p_bflux p)); [|discriminate]. cbn [bind] in H.
  destruct Hx as [<-|Hx]; [|eapply IH; eauto].
  unfold read_part in E. rewrite N in E. cbn [file_or bind] in E. rewrite append_assoc in E.
  destruct (f_moms fs (block_prefix o b ++ o_species o ++ "_fdot_integrated_moms.gkyl")) as [h|]; [eauto|discriminate].
Qed.

(** Whenever the command succeeds, the required file of every block was
    there. *)
Theorem C49_required fs o n outs :
  plain o -> chosen fs (all_blocks o (o_species o)) (o_multib o) n ->
  gk_particle_balance fs o = Ok outs ->
  1 <= n /\ forall b, b < n -> present fs (fdot_of o b (o_species o)) = true.
Proof.
  intros P C H. unfold gk_particle_balance in H.
  rewrite (chosen_num fs o (o_species o) n) in H by (apply P || (apply chosen_pattern, C)). cbn [bind] in H.
  destruct (particle_loop fs o (seq 0 n) (Sums None None None None)) as [s|] eqn:E; [|discriminate]. cbn [bind] in H.
  split.
  - destruct n; [|lia]. cbn in E. injection E as <-. cbn [s_src s_fdot need bind] in H. destruct (o_rel o); cbn in H; [|discriminate].
    destruct (f_scal fs (dt_name o)); discriminate.
  - intros b Hb. destruct (particle_loop_needs fs o _ _ _ E) with (b := b) as [h Hh]; [apply P|apply in_seq; lia|].
    rewrite block_prefix_plain in Hh by exact P. unfold present, fdot_of. now rewrite Hh.
Qed.

(** A missing file of the first block is reported as such. *)
Theorem C49_missing fs o n :
  plain o -> chosen fs (all_blocks o (o_species o)) (o_multib o) n -> 1 <= n ->
  f_moms fs (fdot_of o 0 (o_species o)) = None -> gk_particle_balance fs o = Err OSError.
Proof.
  intros P C Hn H. unfold gk_particle_balance.
  rewrite (chosen_num fs o (o_species o) n) by (apply P || (apply chosen_pattern, C)). cbn [bind].
  destruct n as [|n]; [lia|]. cbn [seq particle_loop].
  enough (read_part fs o 0 (block_prefix o 0 ++ o_species o) = Err OSError) as -> by reflexivity.
  unfold read_part. assert (o_fdot_file o = []) as -> by apply P. cbn [file_or bind].
  rewrite append_assoc, block_prefix_plain by exact P. fold (fdot_of o 0 (o_species o)). now rewrite H.
Qed.

(** If no block matches, the command fails. *)
Theorem C49_no_block fs o :
  plain o -> o_multib o = "-1" -> f_glob fs (all_blocks o (o_species o)) = 0 ->
  gk_particle_balance fs o = Err (if o_rel o then if match f_scal fs (dt_name o) with Some _ => true | None => false end then TypeError else AttributeError else TypeError).
Proof.
  intros P M H. unfold gk_particle_balance.
  assert (num_blocks fs o (o_species o) = Ok 0) as ->.
  { unfold num_blocks. rewrite M. cbn [String.eqb]. cbn. assert (o_fdot_file o = []) as -> by apply P. f_equal.
    rewrite <- H. unfold all_blocks, prefix_of. rewrite M. cbn [String.eqb Ascii.eqb Bool.eqb]. now rewrite !append_assoc. }
  cbn. destruct (o_rel o); cbn; [|reflexivity]. destruct (f_scal fs (dt_name o)); reflexivity.
Qed.

(** The option [--fdot_file], offered for the full path of a file, never
    works, because click passes a tuple. *)
Theorem C49_file_option fs o :
  o_fdot_file o <> [] -> exists e, gk_particle_balance fs o = Err e.
Proof.
  intros H. unfold gk_particle_balance. unfold num_blocks.
  assert (R0 : forall c pre, read_part fs o c pre = Err AttributeError).
  { intros c pre. unfold read_part. destruct (o_fdot_file o); [congruence|reflexivity]. }
  assert (L : forall n, exists e, bind (particle_loop fs o (seq 0 n) (Sums None None None None))
     (fun s => if negb (o_rel o) then
    let* src := need (s_src s) in
    let* bflux := need (s_bflux s) in
    let* fdot := need (s_fdot s) in
    match src, s_last s with
    | [], _ => Err IndexError
    | _ :: src', Some p =>
        let src := 0%R :: src' in
        let* d := bcast Rminus src bflux in
        let* err := bcast Rminus d fdot in
        let* _ := plot (p_time_fdot p) fdot in
        let* _ := match p_time_src p with Some t => plot t src | None => Ok tt end in
        let* _ := match p_time_bflux p with t :: _ => plot t bflux | [] => Ok tt end in
        let* _ := plot (p_time_fdot p) err in
        Ok (([Out "fdot" (GArr (p_time_fdot p)) fdot] ++
            match p_time_src p with Some t => [Out "src" (GArr t) src] | None => [] end ++
            match p_time_bflux p with [] => [] | ts => [Out "bflux" (GList ts) (List.map Ropp bflux)] end ++
            [Out "err" (GArr (p_time_fdot p)) err])%list)
    | _, None => Err UnboundLocalError
    end
  else
    match f_scal fs (dt_name o) with
    | None => Err AttributeError
    | Some dt =>
        let* distf := distf_loop fs o 0 (List.map (fun b => block_prefix o b ++ o_species o) (seq 0 n)) None in
        let* fdot := need (s_fdot s) in
        let* src := need (s_src s) in
        let* bflux := need (s_bflux s) in
        let* distf := need distf in
        let* d := bcast Rminus (tl src) (tl bflux) in
        let* err := bcast Rminus d (tl fdot) in
        let* a := bcast Rmult err (t_vals dt) in
        let* q := bcast Rdiv a (tl distf) in
        let* _ := plot (t_times dt) q in
        Ok [Out "rel_err" (GArr (t_times dt)) q]
    end) = Err e).
  { intros n. destruct n as [|n].
    - cbn. destruct (o_rel o); cbn; [|eauto]. destruct (f_scal fs (dt_name o)); cbn; eauto.
    - cbn [seq particle_loop]. rewrite R0. cbn. eauto. }
  destruct (String.eqb (o_multib o) "-10"); [apply L|].
  destruct (String.eqb (o_multib o) "-1").
  { destruct (o_fdot_file o); [congruence|]. cbn. eauto. }
  destruct (has_char "," (o_multib o)).
  { destruct (mapM py_int _); cbn [bind]; [apply L|eauto]. }
  destruct (has_char ":" (o_multib o)).
  { destruct (blocks_of_slice _); cbn [bind]; [apply L|eauto]. }
  cbn. eauto.
Qed.

(** A source in the first of two blocks enters the error but is not shown. *)
Definition ex_fs : files :=
  Files (fun s =>
    if String.eqb s "./sim_b0-ion_fdot_integrated_moms.gkyl" then Some (Hist [0; 1; 2]%R [[1; 0; 0]; [2; 0; 0]; [3; 0; 0]]%R)
    else if String.eqb s "./sim_b1-ion_fdot_integrated_moms.gkyl" then Some (Hist [0; 1; 2]%R [[1; 0; 0]; [1; 0; 0]; [1; 0; 0]]%R)
    else if String.eqb s "./sim_b0-ion_source_integrated_moms.gkyl" then Some (Hist [0; 1; 2]%R [[9; 0; 0]; [5; 0; 0]; [5; 0; 0]]%R)
    else if String.eqb s "./sim_b1-ion_bflux_zupper_integrated_HamiltonianMoments.gkyl" then Some (Hist [0; 1; 2]%R [[0; 0; 0]; [2; 0; 0]; [2; 0; 0]]%R)
    else None) (fun _ => None) (fun _ => 2).

Example ex_fs_ok : forall b, b < 2 -> files_ok ex_fs (ex_opts "-1") 3 0 b "ion".
Proof.
  assert (G : forall (a b c : R), good 3 0 (Hist [0; 1; 2]%R [[a; 0; 0]; [b; 0; 0]; [c; 0; 0]]%R)).
  { intros a b c. split; [reflexivity|]. split; [reflexivity|]. intros row Hr. cbn [h_rows In] in Hr. destruct Hr as [<-|[<-|[<-|[]]]]; simpl; split; lia. }
  intros b Hb. assert (Hb' : b = 0 \/ b = 1) by lia. destruct Hb' as [-> | ->].
  - split; [eexists; reflexivity|]. intros name h Hin. simpl in Hin.
    repeat (destruct Hin as [<-|Hin]; [vm_compute; intros [= <-]; apply G|]); destruct Hin.
  - split; [eexists; reflexivity|]. intros name h Hin. simpl in Hin.
    repeat (destruct Hin as [<-|Hin]; [vm_compute; intros [= <-]; apply G|]); destruct Hin.
Qed.

Lemma ex_plain mb : plain (ex_opts mb).
Proof. repeat split. Qed.

Theorem C49_shown_refuted :
  exists fs o outs, gk_particle_balance fs o = Ok outs /\
    present fs (source_of o 0 (o_species o)) = true /\ ~ In "src" (List.map o_tag outs).
Proof.
  exists ex_fs, (ex_opts "-1").
  destruct (C49_traces ex_fs (ex_opts "-1") 3 2) as (fd & sr & fl & er & E & _).
  - apply ex_plain.
  - reflexivity.
  - apply (chosen_all ex_fs).
  - lia.
  - lia.
  - apply ex_fs_ok.
  - eexists. split; [exact E|]. split; [reflexivity|]. vm_compute. intuition discriminate.
Qed.

(** At time number one: source 5, flux 2, change 3, so no error. *)
Example C49_ex : exists outs g er,
  gk_particle_balance ex_fs (ex_opts "-1") = Ok outs /\ In (Out "err" g er) outs /\ nth 1 er 0%R = 0%R.
Proof.
  destruct (C49_traces ex_fs (ex_opts "-1") 3 2) as (fd & sr & fl & er & E & _ & _ & _ & H);
    [apply ex_plain|reflexivity|apply (chosen_all ex_fs)|lia|lia|apply ex_fs_ok|].
  eexists _, _, er. split; [exact E|]. split.
  - right. apply in_or_app. right. apply in_or_app. right. left. reflexivity.
  - destruct H as [_ H]. rewrite H by lia. cbn. lra.
Qed.

Print Assumptions C49_traces.
Print Assumptions C49_zero.
Print Assumptions C49_relative.
Print Assumptions C49_required.
Print Assumptions C49_missing.
Print Assumptions C49_no_block.
Print Assumptions C49_file_option.
Print Assumptions C49_shown_refuted.
