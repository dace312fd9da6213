(** * C62: the energy balance. *)
From Coq Require Import String Ascii ZArith List Bool Reals Lia Lra.
From Verif Require Import Prelude PreludeFacts DataSpace_Spec DataSpace_Proofs Gk_Model Gk_Spec Gk_Props Gk_Proofs Gk_Props2.
Import ListNotations.
Open Scope string_scope.
Open Scope nat_scope.

Lemma species_loop_ok fs o T b : plain o -> 2 <= T ->
  forall sps, (forall sp, In sp sps -> files_ok fs o T 2 b sp) ->
  forall F S B lastp f0 s0 b0, opt_holds T f0 F -> opt_holds T s0 S -> opt_holds T b0 B -> sps <> [] ->
  species_loop fs o (block_prefix o b) sps (Sums F S B lastp) =
  Ok (Sums (Some (vec T (fun t => (f0 t + total (fun sp => moment fs 2 (fdot_of o b sp) t) sps)%R)))
           (Some (vec T (fun t => (s0 t + total (fun sp => moment fs 2 (source_of o b sp) t) sps)%R)))
           (Some (vec T (fun t => (b0 t + total (fun sp => total (fun bd => moment fs 2 (flux_of o b sp bd) t) six) sps)%R)))
           (Some (part_of fs o T 2 b (last sps "")))).
Proof.
  intros P HT. induction sps as [|sp sps IH]; intros G F S B lastp f0 s0 b0 HF HS HB NE; [congruence|].
  cbn [species_loop]. rewrite (read_part_ok fs o T 2 b sp P HT) by (apply G; now left). cbn [bind part_of p_fdot p_src p_bflux s_fdot s_src s_bflux].
  rewrite (accumulate_vec T f0 _ F HF). cbn [bind].
  rewrite (accumulate_vec T s0 _ S HS). cbn [bind].
  rewrite (accumulate_vec T b0 _ B HB). cbn [bind].
  destruct sps as [|sp' sps].
  - cbn [species_loop last]. unfold total. cbn [List.map fold_right]. do 2 f_equal.
    + f_equal. apply vec_ext. intros t _. lra.
    + f_equal. apply vec_ext. intros t _. lra.
    + f_equal. apply vec_ext. intros t _. lra.
  - erewrite IH; [|intros x Hx; apply G; now right|cbn [opt_holds]; reflexivity|cbn [opt_holds]; reflexivity|cbn [opt_holds]; reflexivity|discriminate].
    do 2 f_equal.
    + f_equal. apply vec_ext. intros t _. rewrite (total_cons _ sp). lra.
    + f_equal. apply vec_ext. intros t _. rewrite (total_cons _ sp). lra.
    + f_equal. apply vec_ext. intros t _. rewrite (total_cons _ sp). lra.
Qed.

(** A file of scalars covers [T] times. *)
Definition scalar_ok (fs : files) (T : nat) (name : string) : Prop :=
  exists x, f_scal fs name = Some x /\ length (t_vals x) = T /\ length (t_times x) = T.

Definition scalar_times (fs : files) (name : string) : list R :=
  match f_scal fs name with Some x => t_times x | None => [] end.

Lemma scalar_vec fs T name x : f_scal fs name = Some x -> length (t_vals x) = T -> t_vals x = vec T (scalar fs name).
Proof. intros E L. rewrite (list_vec (t_vals x)), L. apply vec_ext. intros t _. unfold scalar. now rewrite E. Qed.

Lemma energy_loop_ok fs o T sps : plain o -> 2 <= T -> sps <> [] ->
  forall bs, (forall b, In b bs -> scalar_ok fs T (file_name o b "field_energy_dot.gkyl") /\ forall sp, In sp sps -> files_ok fs o T 2 b sp) ->
  forall E tf F S B lastp e0 f0 s0 b0, opt_holds T e0 E -> opt_holds T f0 F -> opt_holds T s0 S -> opt_holds T b0 B -> bs <> [] ->
  energy_loop fs o sps bs (ESums E tf (Sums F S B lastp)) =
  Ok (ESums (Some (vec T (fun t => (e0 t + total (fun b => scalar fs (file_name o b "field_energy_dot.gkyl") t) bs)%R)))
      (scalar_times fs (file_name o (last bs 0) "field_energy_dot.gkyl"))
      (Sums (Some (vec T (fun t => (f0 t + total (fun b => total (fun sp => moment fs 2 (fdot_of o b sp) t) sps) bs)%R)))
            (Some (vec T (fun t => (s0 t + total (fun b => total (fun sp => moment fs 2 (source_of o b sp) t) sps) bs)%R)))
            (Some (vec T (fun t => (b0 t + total (fun b => total (fun sp => total (fun bd => moment fs 2 (flux_of o b sp bd) t) six) sps) bs)%R)))
            (Some (part_of fs o T 2 (last bs 0) (last sps ""))))).
Proof.
  intros P HT Hs. induction bs as [|b bs IH]; intros G E tf F S B lastp e0 f0 s0 b0 HE HF HS HB NE; [congruence|].
  cbn [energy_loop]. assert (o_field_dot_file o = []) as -> by apply P. cbn [file_or bind].
  rewrite (block_prefix_plain o b _ P).
  destruct (G b) as ((x & Ex & Lx & Lt) & Gs); [now left|]. rewrite Ex.
  rewrite (species_loop_ok fs o T b P HT sps Gs None None None None (fun _ => 0%R) (fun _ => 0%R) (fun _ => 0%R)); cbn [opt_holds]; auto.
  cbn [bind e_field]. rewrite (scalar_vec fs T _ x Ex Lx).
  rewrite (accumulate_vec T e0 _ E HE). cbn [bind need s_fdot s_src s_bflux e_sums].
  rewrite (accumulate_vec T f0 _ F HF). cbn [bind need s_fdot s_src s_bflux e_sums].
  rewrite (accumulate_vec T s0 _ S HS). cbn [bind need s_fdot s_src s_bflux e_sums].
  rewrite (accumulate_vec T b0 _ B HB). cbn [bind s_last].
  assert (Et : t_times x = scalar_times fs (file_name o b "field_energy_dot.gkyl")) by (unfold scalar_times; now rewrite Ex).
  destruct bs as [|b' bs].
  - cbn [energy_loop last]. rewrite Et. do 2 f_equal; [f_equal; apply vec_ext; intros t _; rewrite total_one; lra|].
    f_equal; f_equal; apply vec_ext; intros t _; rewrite total_one; lra.
  - erewrite IH; [|intros y Hy; apply G; now right|cbn [opt_holds]; reflexivity|cbn [opt_holds]; reflexivity|cbn [opt_holds]; reflexivity|cbn [opt_holds]; reflexivity|discriminate].
    do 2 f_equal; [f_equal; apply vec_ext; intros t _; rewrite (total_cons _ b); lra|].
    f_equal; f_equal; apply vec_ext; intros t _; rewrite (total_cons _ b); lra.
Qed.

(** The species are given as a comma list. *)
Definition species_list (o : opts) (sps : list string) : Prop :=
  sps <> [] /\ o_species o = join "," sps /\ Forall (fun s => has_char "," s = false) sps.

(** Everything the command needs. *)
Definition energy_files (fs : files) (o : opts) (T n : nat) (sps : list string) : Prop :=
  forall b, b < n -> scalar_ok fs T (file_name o b "field_energy_dot.gkyl") /\ forall sp, In sp sps -> files_ok fs o T 2 b sp.

Lemma energy_sums fs o T n sps :
  plain o -> 2 <= T -> 1 <= n -> sps <> [] -> energy_files fs o T n sps ->
  energy_loop fs o sps (seq 0 n) (ESums None [] (Sums None None None None)) =
  Ok (ESums (Some (vec T (field_rate fs o n))) (scalar_times fs (file_name o (n - 1) "field_energy_dot.gkyl"))
     (Sums (Some (vec T (change fs o 2 n sps))) (Some (vec T (source fs o 2 n sps)))
           (Some (vec T (flux fs o 2 n sps))) (Some (part_of fs o T 2 (n - 1) (last sps ""))))).
Proof.
  intros P HT Hn Hs G.
  rewrite (energy_loop_ok fs o T sps P HT Hs (seq 0 n)) with (e0 := fun _ => 0%R)
    (f0 := fun _ => 0%R) (s0 := fun _ => 0%R) (b0 := fun _ => 0%R); cbn [opt_holds]; auto using seq_nonempty.
  - rewrite last_seq by exact Hn. f_equal. f_equal.
    + f_equal. apply vec_ext. intros t _. apply Rplus_0_l.
    + f_equal; f_equal; apply vec_ext; intros t _; apply Rplus_0_l.
  - intros b Hb. apply in_seq in Hb. apply G. lia.
Qed.

Lemma species_split o sps : species_list o sps -> split_on "," (o_species o) = sps.
Proof. intros (N & -> & F). now apply (split_join ","). Qed.

Lemma hd_first sps : sps <> [] -> In (hd "" sps) sps.
Proof. destruct sps; [congruence|]. now left. Qed.

Lemma last_in (sps : list string) : sps <> [] -> In (last sps "") sps.
Proof. intros H. destruct (exists_last H) as (l & a & ->). rewrite last_last. apply in_or_app. right. now left. Qed.

(** What the command adds to the data space: the terms summed over blocks,
    species and boundaries, and as error the source minus the flux minus the
    difference of the changes of particle and field energy. *)
Theorem C62_traces fs o T n sps :
  plain o -> o_rel o = false -> species_list o sps ->
  chosen fs (all_blocks o (hd "" sps)) (o_multib o) n ->
  1 <= n -> 2 <= T -> energy_files fs o T n sps ->
  let sp := last sps "" in
  let times := times_of fs (fdot_of o (n - 1) sp) in
  exists fd sr fl ff er,
    gk_energy_balance fs o =
      Ok (Out "fdot" (GArr times) fd ::
          (if present fs (source_of o (n - 1) sp) then [Out "src" (GArr (times_of fs (source_of o (n - 1) sp))) sr] else []) ++
          (if existsb (fun bd => present fs (flux_of o (n - 1) sp bd)) six then [Out "bflux" (GList (flux_times fs o (n - 1) sp)) fl] else []) ++
          [Out "field_dot" (GArr (scalar_times fs (file_name o (n - 1) "field_energy_dot.gkyl"))) ff;
           Out "err" (GArr times) er])%list /\
    holds T (change fs o 2 n sps) fd /\ holds T (shown_source fs o 2 n sps) sr /\
    holds T (fun t => - flux fs o 2 n sps t)%R fl /\ holds T (field_rate fs o n) ff /\
    holds T (fun t => shown_source fs o 2 n sps t - flux fs o 2 n sps t - (change fs o 2 n sps t - field_rate fs o n t))%R er.
Proof.
  intros P Rl Sl C Hn HT G sp times.
  exists (vec T (change fs o 2 n sps)), (vec T (shown_source fs o 2 n sps)), (vec T (fun t => - flux fs o 2 n sps t)%R), (vec T (field_rate fs o n)),
    (vec T (fun t => shown_source fs o 2 n sps t - flux fs o 2 n sps t - (change fs o 2 n sps t - field_rate fs o n t))%R).
  split; [|repeat split; try apply vec_length; intros t Ht; now rewrite vec_nth].
  unfold gk_energy_balance. rewrite (species_split o sps Sl).
  rewrite (chosen_num fs o (hd "" sps) n) by (apply P || (apply chosen_pattern, C)). cbn [bind].
  rewrite (energy_sums fs o T n sps P HT Hn) by (exact G || apply Sl). cbn [bind e_sums e_field e_time_field s_src s_bflux s_fdot s_last need]. rewrite Rl. cbn [negb].
  destruct (vec_cons T (source fs o 2 n sps) HT) as (a & l & E). rewrite E.
  assert (l = tl (vec T (source fs o 2 n sps))) as -> by (now rewrite E).
  rewrite zero_first by exact HT. change (fun t => if t =? 0 then 0%R else source fs o 2 n sps t) with (shown_source fs o 2 n sps).
  cbn [part_of p_time_fdot p_time_src p_time_bflux]. fold sp. fold times.
  rewrite bcast_vec. cbn [bind]. rewrite bcast_vec. cbn [bind]. rewrite bcast_vec. cbn [bind].
  assert (Gl : files_ok fs o T 2 (n - 1) sp) by (apply G; [lia|apply last_in, Sl]).
  assert (Lt : length times = T) by exact (times_length fs o T 2 (n - 1) sp Gl).
  rewrite (plot_ok times T) by exact Lt. cbn [bind].
  rewrite flux_times_eq.
  assert (Es : (match option_map h_times (f_moms fs (source_of o (n - 1) sp)) with Some t => plot t (vec T (shown_source fs o 2 n sps)) | None => Ok tt end) = Ok tt).
  { destruct (f_moms fs (source_of o (n - 1) sp)) as [h|] eqn:E'; [|reflexivity]. cbn [option_map].
    apply plot_ok. apply (proj2 Gl (source_of o (n - 1) sp) h); [right; now left|exact E']. }
  rewrite Es. cbn [bind].
  assert (Ef : (match flux_times fs o (n - 1) sp with t :: _ => plot t (vec T (flux fs o 2 n sps)) | [] => Ok tt end) = Ok tt).
  { destruct (flux_times fs o (n - 1) sp) as [|t ts] eqn:E'; [reflexivity|]. apply plot_ok.
    assert (I : In t (flux_times fs o (n - 1) sp)) by (rewrite E'; now left).
    unfold flux_times in I. apply in_map_iff in I. destruct I as (bd & <- & I). apply filter_In in I. destruct I as [I Q].
    unfold present in Q. unfold times_of. destruct (f_moms fs (flux_of o (n - 1) sp bd)) as [h|] eqn:E2; [|discriminate].
    apply (proj2 Gl (flux_of o (n - 1) sp bd) h); [right; right; now apply in_map|exact E2]. }
  rewrite Ef. cbn [bind].
  rewrite (plot_ok (scalar_times _ _) T).
  2:{ destruct (G (n - 1)) as ((x & Ex & _ & Lx) & _); [lia|]. unfold scalar_times. now rewrite Ex. }
  cbn [bind]. rewrite (plot_ok times T) by exact Lt. cbn [bind].
  f_equal. cbn [app]. f_equal. f_equal.
  - unfold present, times_of. destruct (f_moms fs (source_of o (n - 1) sp)); reflexivity.
  - f_equal. rewrite vec_map.
    assert (B : existsb (fun bd => present fs (flux_of o (n - 1) sp bd)) six = match flux_times fs o (n - 1) sp with [] => false | _ => true end).
    { unfold flux_times. clear. generalize six. intros l. induction l as [|bd l IH]; [reflexivity|]. cbn [existsb filter].
      destruct (present fs (flux_of o (n - 1) sp bd)); [reflexivity|]. exact IH. }
    rewrite B. destruct (flux_times fs o (n - 1) sp); reflexivity.
Qed.

(** The relative error. *)
Lemma energy_distf_ok fs o T sps : plain o -> 2 <= T -> sps <> [] ->
  forall bs, (forall b, In b bs -> scalar_ok fs T (file_name o b "field_energy.gkyl") /\
     forall sp, In sp sps -> exists h, f_moms fs (distf_of o b sp) = Some h /\ good T 2 h) ->
  forall E D e0 d0, opt_holds T e0 E -> opt_holds T d0 D -> bs <> [] ->
  energy_distf_loop fs o sps bs E D =
  Ok (Some (vec T (fun t => (e0 t + total (fun b => scalar fs (file_name o b "field_energy.gkyl") t) bs)%R)),
      Some (vec T (fun t => (d0 t + total (fun b => total (fun sp => moment fs 2 (distf_of o b sp) t) sps) bs)%R))).
Proof.
  intros P HT Hs. induction bs as [|b bs IH]; intros G E D e0 d0 HE HD NE; [congruence|].
  cbn [energy_distf_loop]. assert (o_field_file o = []) as -> by apply P. cbn [file_or bind].
  destruct (G b) as ((x & Ex & Lx & Lt) & Gs); [now left|].
  assert (En : List.map (fun sp => block_prefix o b ++ sp) sps = List.map (fun sp => file_name o b sp) sps).
  { apply map_ext. intros sp. now apply block_prefix_plain. }
  rewrite En. rewrite (distf_loop_ok fs o T 2 (List.map (fun sp => file_name o b sp) sps)) with (f0 := fun _ => 0%R).
  2:{ apply P. } 2:{ exact HT. }
  2:{ intros pre Hp. apply in_map_iff in Hp. destruct Hp as (sp & <- & Hsp). rewrite file_name_app. now apply Gs. }
  2:{ cbn. auto. } 2:{ destruct sps; [congruence|discriminate]. }
  cbn [bind need]. rewrite (block_prefix_plain o b _ P), Ex, (scalar_vec fs T _ x Ex Lx).
  rewrite (accumulate_vec T e0 _ E HE). cbn [bind].
  rewrite (accumulate_vec T d0 _ D HD). cbn [bind].
  assert (Q : forall t, total (fun pre => moment fs 2 (pre ++ "_integrated_moms.gkyl") t) (List.map (fun sp => file_name o b sp) sps)
              = total (fun sp => moment fs 2 (distf_of o b sp) t) sps).
  { intros t. unfold total at 1. rewrite map_map. apply total_ext. intros sp _. unfold distf_of. now rewrite file_name_app. }
  destruct bs as [|b' bs].
  - cbn [energy_distf_loop]. do 2 f_equal; f_equal; apply vec_ext; intros t _; rewrite ?Q, total_one; lra.
  - erewrite IH; [|intros y Hy; apply G; now right|cbn [opt_holds]; reflexivity|cbn [opt_holds]; reflexivity|discriminate].
    do 2 f_equal; f_equal; apply vec_ext; intros t _; rewrite ?Q, (total_cons _ b); lra.
Qed.

Lemma rest1_vec T f : 2 <= T -> rest1 (vec T f) = Ok (vec (T - 1) (fun t => f (S t))).
Proof.
  intros H. destruct T as [|[|T]]; [lia|lia|]. change (S (S T) - 1) with (S T). rewrite <- vec_tl.
  unfold rest1, vec. cbn [seq List.map]. reflexivity.
Qed.

Theorem C62_relative fs o T n sps dt :
  plain o -> o_rel o = true -> species_list o sps ->
  chosen fs (all_blocks o (hd "" sps)) (o_multib o) n ->
  1 <= n -> 2 <= T -> energy_files fs o T n sps ->
  (forall b, b < n -> scalar_ok fs T (file_name o b "field_energy.gkyl") /\
     forall sp, In sp sps -> exists h, f_moms fs (distf_of o b sp) = Some h /\ good T 2 h) ->
  o_dt_file o <> Some "" -> f_scal fs (dt_file o) = Some dt ->
  length (t_times dt) = T - 1 -> length (t_vals dt) = T - 1 ->
  exists q, gk_energy_balance fs o = Ok [Out "rel_err" (GArr (t_times dt)) q] /\ length q = T - 1 /\
  forall t, t < T - 1 -> content fs o 2 n sps (S t) <> field_energy fs o n (S t) ->
    (nth t q 0 * (content fs o 2 n sps (S t) - field_energy fs o n (S t)) =
     (source fs o 2 n sps (S t) - flux fs o 2 n sps (S t) - (change fs o 2 n sps (S t) - field_rate fs o n (S t))) * nth t (t_vals dt) 0)%R.
Proof.
  intros P Rl Sl C Hn HT G Gd Dn Ed L1 L2.
  exists (vec (T - 1) (fun t => (source fs o 2 n sps (S t) - flux fs o 2 n sps (S t) - (change fs o 2 n sps (S t) - field_rate fs o n (S t))) * nth t (t_vals dt) 0 / (content fs o 2 n sps (S t) - field_energy fs o n (S t)))%R).
  split; [|split; [apply vec_length|]].
  2:{ intros t Ht Hc. rewrite vec_nth by exact Ht. field. lra. }
  unfold gk_energy_balance. rewrite (species_split o sps Sl).
  rewrite (chosen_num fs o (hd "" sps) n) by (apply P || (apply chosen_pattern, C)). cbn [bind].
  rewrite (energy_sums fs o T n sps P HT Hn) by (exact G || apply Sl). cbn [bind e_sums e_field s_src s_bflux s_fdot s_last need]. rewrite Rl. cbn [negb].
  rewrite dt_name_plain by assumption. rewrite Ed.
  rewrite (energy_distf_ok fs o T sps P HT (proj1 Sl) (seq 0 n)) with (e0 := fun _ => 0%R) (d0 := fun _ => 0%R); cbn [opt_holds]; auto using seq_nonempty.
  2:{ intros b Hb. apply in_seq in Hb. apply Gd. lia. }
  cbn [bind need fst snd]. rewrite rest1_vec by exact HT. cbn [bind]. rewrite rest1_vec by exact HT. cbn [bind].
  destruct T as [|T]; [lia|]. rewrite !vec_tl. replace (S T - 1) with T in * by lia.
  rewrite bcast_vec. cbn [bind]. rewrite bcast_vec. cbn [bind]. rewrite bcast_vec. cbn [bind].
  rewrite (list_vec (t_vals dt)) at 1. rewrite L2, bcast_vec. cbn [bind]. rewrite bcast_vec. cbn [bind]. rewrite bcast_vec. cbn [bind].
  rewrite plot_ok by exact L1. cbn [bind]. do 3 f_equal. apply vec_ext. intros t Ht. rewrite !Rplus_0_l. reflexivity.
Qed.

(** ** Failures *)

Lemma energy_loop_needs fs o sps : forall bs e r, energy_loop fs o sps bs e = Ok r -> o_field_dot_file o = [] ->
  forall b, In b bs -> exists x, f_scal fs (block_prefix o b ++ "field_energy_dot.gkyl") = Some x.
Proof.
  induction bs as [|b bs IH]; intros e r H N y Hy; [destruct Hy|]. cbn [energy_loop] in H. rewrite N in H. cbn [file_or bind] in H.
  destruct (f_scal fs (block_prefix o b ++ "field_energy_dot.gkyl")) as [x|] eqn:Ex; [|discriminate].
  destruct Hy as [<-|Hy]; [eauto|].
  destruct (species_loop _ _ _ _ _) as [s|]; [|discriminate]. cbn [bind] in H.
  destruct (accumulate_or_assign (e_field e) (t_vals x)); [|discriminate]. cbn [bind] in H.
  destruct (need (s_fdot s)) as [u|]; [|discriminate]. cbn [bind] in H. destruct (accumulate_or_assign (s_fdot (e_sums e)) u); [|discriminate]. cbn [bind] in H.
  destruct (need (s_src s)) as [v|]; [|discriminate]. cbn [bind] in H. destruct (accumulate_or_assign (s_src (e_sums e)) v); [|discriminate]. cbn [bind] in H.
  destruct (need (s_bflux s)) as [w|]; [|discriminate]. cbn [bind] in H. destruct (accumulate_or_assign (s_bflux (e_sums e)) w); [|discriminate]. cbn [bind] in H.
  eapply IH; eauto.
Qed.

(** The file with the change of the field energy is required in every block. *)
Theorem C62_required fs o n outs sps :
  plain o -> species_list o sps -> chosen fs (all_blocks o (hd "" sps)) (o_multib o) n ->
  gk_energy_balance fs o = Ok outs ->
  1 <= n /\ forall b, b < n -> exists x, f_scal fs (file_name o b "field_energy_dot.gkyl") = Some x.
Proof.
  intros P Sl C H. unfold gk_energy_balance in H. rewrite (species_split o sps Sl) in H.
  rewrite (chosen_num fs o (hd "" sps) n) in H by (apply P || (apply chosen_pattern, C)). cbn [bind] in H.
  destruct (energy_loop fs o sps (seq 0 n) _) as [s|] eqn:E; [|discriminate]. cbn [bind] in H.
  split.
  - destruct n; [|lia]. cbn in E. injection E as <-. cbn [e_sums e_field s_src s_fdot need bind] in H. destruct (o_rel o); cbn in H; [|discriminate].
    destruct (f_scal fs (dt_name o)); discriminate.
  - intros b Hb. rewrite <- (block_prefix_plain o b _ P). eapply energy_loop_needs; [exact E|apply P|apply in_seq; lia].
Qed.

(** A list of blocks other than the first ones is not what is read. *)
Lemma species_loop_blocks fs o s pre : forall sps x,
  species_loop fs (with_blocks o s) pre sps x = species_loop fs o pre sps x.
Proof.
  induction sps as [|sp sps IH]; intros x; cbn [species_loop]; [reflexivity|].
  rewrite !read_part_blocks. destruct (read_part _ _ _ _); [|reflexivity]. cbn [bind].
  destruct (accumulate_or_assign _ _); [|reflexivity]. cbn [bind].
  destruct (accumulate_or_assign _ _); [|reflexivity]. cbn [bind].
  destruct (accumulate_or_assign _ _); [|reflexivity]. cbn [bind]. apply IH.
Qed.

Lemma energy_loop_blocks fs o s s' sps : String.eqb s "-10" = false -> String.eqb s' "-10" = false ->
  forall bs x, energy_loop fs (with_blocks o s) sps bs x = energy_loop fs (with_blocks o s') sps bs x.
Proof.
  intros A B. induction bs as [|b bs IH]; intros x; cbn [energy_loop]; [reflexivity|].
  rewrite !species_loop_blocks, !(block_prefix_blocks o s s') by assumption. cbn [with_blocks o_field_dot_file].
  destruct (file_or _ _); [|reflexivity]. cbn [bind]. destruct (f_scal _ _); [|reflexivity].
  destruct (species_loop _ _ _ _ _); [|reflexivity]. cbn [bind].
  destruct (accumulate_or_assign _ _); [|reflexivity]. cbn [bind].
  destruct (need _); [|reflexivity]. cbn [bind]. destruct (accumulate_or_assign _ _); [|reflexivity]. cbn [bind].
  destruct (need _); [|reflexivity]. cbn [bind]. destruct (accumulate_or_assign _ _); [|reflexivity]. cbn [bind].
  destruct (need _); [|reflexivity]. cbn [bind]. destruct (accumulate_or_assign _ _); [|reflexivity]. cbn [bind]. apply IH.
Qed.

Lemma energy_distf_blocks fs o s s' sps : String.eqb s "-10" = false -> String.eqb s' "-10" = false ->
  forall bs x y, energy_distf_loop fs (with_blocks o s) sps bs x y = energy_distf_loop fs (with_blocks o s') sps bs x y.
Proof.
  intros A B. induction bs as [|b bs IH]; intros x y; cbn [energy_distf_loop]; [reflexivity|].
  rewrite !distf_loop_blocks, !(block_prefix_blocks o s s') by assumption. cbn [with_blocks o_field_file].
  assert (E : List.map (fun sp => block_prefix (with_blocks o s) b ++ sp) sps = List.map (fun sp => block_prefix (with_blocks o s') b ++ sp) sps).
  { apply map_ext. intros sp. now rewrite (block_prefix_blocks o s s' b A B). }
  rewrite ?E. destruct (file_or _ _); [|reflexivity]. cbn [bind]. destruct (distf_loop _ _ _ _ _); [|reflexivity]. cbn [bind].
  destruct (f_scal _ _); [|reflexivity]. destruct (accumulate_or_assign _ _); [|reflexivity]. cbn [bind].
  destruct (need _); [|reflexivity]. cbn [bind]. destruct (accumulate_or_assign _ _); [|reflexivity]. cbn [bind]. apply IH.
Qed.

Theorem C46_energy_first_blocks fs o zs ws :
  2 <= length zs -> length zs = length ws ->
  gk_energy_balance fs (with_blocks o (join "," (List.map show_Z zs))) =
  gk_energy_balance fs (with_blocks o (join "," (List.map show_Z ws))).
Proof.
  intros H L. assert (H' : 2 <= length ws) by lia.
  pose proof (neq_by_char "," _ "-10" (comma_list zs H) eq_refl) as A.
  pose proof (neq_by_char "," _ "-10" (comma_list ws H') eq_refl) as B.
  unfold gk_energy_balance. rewrite !num_blocks_list by assumption. cbn [bind]. rewrite <- L. cbn [with_blocks o_species o_rel].
  rewrite (energy_loop_blocks fs o _ _ _ A B). rewrite (energy_distf_blocks fs o _ _ _ A B).
  destruct (energy_loop _ _ _ _ _) as [s|]; [|reflexivity]. cbn [bind].
  destruct (o_rel o); cbn [negb]; [|reflexivity].
  unfold dt_name. rewrite !prefix_multi by assumption. reflexivity.
Qed.

(** ** Example: one block, two species. *)
Definition e_opts : opts := Opts "sim" "elc,ion" "." false "-10" [] [] (fun _ => []) [] [] [] None.
Definition e_fs : files :=
  Files (fun s =>
    if String.eqb s "./sim-elc_fdot_integrated_moms.gkyl" then Some (Hist [0; 1]%R [[9; 9; 1]; [9; 9; 2]]%R)
    else if String.eqb s "./sim-ion_fdot_integrated_moms.gkyl" then Some (Hist [0; 1]%R [[9; 9; 1]; [9; 9; 6]]%R)
    else if String.eqb s "./sim-ion_source_integrated_moms.gkyl" then Some (Hist [0; 1]%R [[9; 9; 4]; [9; 9; 5]]%R)
    else None)
    (fun s => if String.eqb s "./sim-field_energy_dot.gkyl" then Some (Trace [0; 1]%R [0; 3]%R) else None) (fun _ => 0).

Example e_files : energy_files e_fs e_opts 2 1 ["elc"; "ion"].
Proof.
  assert (G : forall (a b c d : R), good 2 2 (Hist [0; 1]%R [[9; 9; a]; [9; 9; b]]%R)).
  { intros a b c d. split; [reflexivity|]. split; [reflexivity|]. intros row Hr. cbn [h_rows In] in Hr. destruct Hr as [<-|[<-|[]]]; simpl; split; lia. }
  intros b Hb. assert (b = 0) as -> by lia. split.
  - eexists. split; [reflexivity|]. split; reflexivity.
  - intros sp [<-|[<-|[]]].
    + split; [eexists; reflexivity|]. intros name h Hin. simpl in Hin.
      repeat (destruct Hin as [<-|Hin]; [vm_compute; intros [= <-]; apply (G _ _ 0%R 0%R)|]); destruct Hin.
    + split; [eexists; reflexivity|]. intros name h Hin. simpl in Hin.
      repeat (destruct Hin as [<-|Hin]; [vm_compute; intros [= <-]; apply (G _ _ 0%R 0%R)|]); destruct Hin.
Qed.

(** Source 5, change 8, change of the field 3: no error. *)
Example C62_ex : exists outs g er,
  gk_energy_balance e_fs e_opts = Ok outs /\ In (Out "err" g er) outs /\ nth 1 er 0%R = 0%R.
Proof.
  destruct (C62_traces e_fs e_opts 2 1 ["elc"; "ion"]) as (fd & sr & fl & ff & er & E & _ & _ & _ & _ & H).
  - repeat split.
  - reflexivity.
  - split; [discriminate|]. split; [reflexivity|]. repeat constructor.
  - apply (chosen_single e_fs).
  - lia.
  - lia.
  - apply e_files.
  - eexists _, _, er. split; [exact E|]. split.
    + right. apply in_or_app. right. apply in_or_app. right. right. left. reflexivity.
    + destruct H as [_ H]. rewrite H by lia. cbn. lra.
Qed.

Print Assumptions C62_traces.
Print Assumptions C62_relative.
Print Assumptions C62_required.
Print Assumptions C46_energy_first_blocks.
