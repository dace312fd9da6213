(** * Model of the binary Gkeyll reader and writer
    (data/gkyl_reader.py and the gkyl branch of data/gdata.py [GData.write]).

    A file is its list of bytes (integers 0..255).  Integers are decoded as
    little-endian two's complement.  Floating-point numbers are decoded by an
    arbitrary function of the width and the bytes, so the data movement is
    exact for every bit pattern; arithmetic on bounds uses the operations of
    the structure [fops]. *)
From Coq Require Import String Ascii List ZArith Bool Lia.
From Verif Require Import Prelude NdArray.
Import ListNotations.
Open Scope list_scope.
Open Scope Z_scope.

(** Numbers as the reader uses them. data/gkyl_reader.py 225-228, 285-287, 301, 324, 542-549. *)
Record fops (F : Type) := mk_fops {
  fdec : nat -> list Z -> F;     (* bytes of the given width -> number *)
  fzero : F;                     (* value of np.zeros *)
  fadd : F -> F -> F;
  fsub : F -> F -> F;
  fmul : F -> F -> F;
  fdiv : F -> F -> F;
  fofZ : Z -> F
}.
Arguments fdec {F}. Arguments fzero {F}. Arguments fadd {F}. Arguments fsub {F}.
Arguments fmul {F}. Arguments fdiv {F}. Arguments fofZ {F}.

(** Little-endian unsigned value of a byte list. [np.dtype("i8")], data/gkyl_reader.py 114. *)
Fixpoint le_val (bs : list Z) : Z :=
  match bs with [] => 0 | b :: bs' => b + 256 * le_val bs' end.

(** Signed 64-bit integer, dtype "i8" (gkyl_reader.py 114). *)
Definition dec_i64 (bs : list Z) : Z :=
  let v := le_val bs in if v <? 2 ^ 63 then v else v - 2 ^ 64.

(** Up to [n] consecutive chunks of [w] bytes; stops at the end of the file.
    For [np.fromfile], data/gkyl_reader.py 155-207, 301, 324. *)
Fixpoint chunks (w n : nat) (l : list Z) : list (list Z) :=
  match n with
  | O => []
  | S n' => if (w <=? length l)%nat then firstn w l :: chunks w n' (skipn w l) else []
  end.

(** [np.fromfile(f, dtype, count, offset=off)]: fewer items when the file ends
    early, all remaining ones when [count] is negative.
    data/gkyl_reader.py 155-157, 174-180, 206, 217-238, 301, 324, 386-402, 424-435. *)
Definition fromfile (f : list Z) (w : nat) (count off : Z) : res (list (list Z)) :=
  if off <? 0 then Err OSError
  else
    let n := if count <? 0 then length f else Z.to_nat (Z.min count (Z.of_nat (length f))) in
    Ok (chunks w n (skipn (Z.to_nat off) f)).

(** [np.fromfile(..., dtype="i8", count=1)[0]] *)
Definition read_i64 (f : list Z) (off : Z) : res Z :=
  let* l := fromfile f 8 1 off in
  match l with [] => Err IndexError | b :: _ => Ok (dec_i64 b) end.

Definition read_i64s (f : list Z) (count off : Z) : res (list Z) :=
  let* l := fromfile f 8 count off in Ok (List.map dec_i64 l).

(** The magic bytes "gkyl0" (gkyl_reader.py 156). *)
Definition magic : list Z := [103; 107; 121; 108; 48].

Section Reader.
  Context {F M : Type}.
  Variable fo : fops F.
  (** [msgpack.unpackb]: [None] if the bytes are not valid msgpack, otherwise
      the dictionary they denote ([Some None] if they denote something else). *)
  Variable unpack : list Z -> option (option (list (string * M))).
  (** Metadata value [True]. *)
  Variable mtrue : M.
  (** Contents of the file. *)
  Variable f : list Z.

  (** Reader attributes changed while reading (gkyl_reader.py 113-120). *)
  Record rst := mk_rst {
    r_off : Z;             (* self.offset *)
    r_w : nat;             (* self.doffset / itemsize of self.dtf *)
    r_type : Z;            (* self.file_type *)
    r_ver : Z;             (* self.version *)
    r_ctx : list (string * M)
  }.

  (** gkyl_reader.py 113-120 *)
  Definition init_rst (ctx : list (string * M)) : rst := mk_rst 0 8 1 0 ctx.

  (** gkyl_reader.py 152-165: the bare [except] turns every failure into
      [False].  (numpy reads signed bytes; the magic bytes are below 128.) *)
  Definition is_compatible : bool :=
    match fromfile f 1 5 0 with
    | Ok l => if list_eq_dec (list_eq_dec Z.eq_dec) l (List.map (fun b => [b]) magic)
              then match read_i64 f 5 with Ok _ => true | Err _ => false end
              else false
    | Err _ => false
    end.

  (** gkyl_reader.py 188-199: storing the metadata dictionary. *)
  Definition store_meta (ctx : list (string * M)) (unp : list (string * M)) : list (string * M) :=
    fold_left (fun c kv =>
      let key := fst kv in
      if (String.eqb key "polyOrder" || String.eqb key "poly_order")%bool
      then aset "poly_order" (snd kv) c
      else if (String.eqb key "basisType" || String.eqb key "basis_type")%bool
      then aset "is_modal" mtrue (aset "basis_type" (snd kv) c)
      else aset key (snd kv) c) unp ctx.

  (** gkyl_reader.py 171-203, the part under [if self.is_compatible()]. *)
  Definition read_magic_header (s : rst) : res rst :=
    let o1 := r_off s + 5 in
    let* ver := read_i64 f o1 in
    let* ft := read_i64 f (o1 + 8) in
    let* ms := read_i64 f (o1 + 16) in
    let o2 := o1 + 24 in
    if 0 <? ms then
      match unpack (firstn (Z.to_nat ms) (skipn (Z.to_nat o2) f)) with
      | None => Err ValueError
      | Some None => Ok (mk_rst (o2 + ms) (r_w s) ft ver (r_ctx s))
      | Some (Some d) => Ok (mk_rst (o2 + ms) (r_w s) ft ver (store_meta (r_ctx s) d))
      end
    else Ok (mk_rst o2 (r_w s) ft ver (r_ctx s)).

  (** gkyl_reader.py 169-212 *)
  Definition read_header (s : rst) : res rst :=
    let* s1 := (if is_compatible then read_magic_header s else Ok s) in
    let* rt := read_i64 f (r_off s1) in
    Ok (mk_rst (r_off s1 + 8) (if rt =? 1 then 4%nat else r_w s1)
               (r_type s1) (r_ver s1) (r_ctx s1)).

  (** Domain attributes (gkyl_reader.py 217-289). *)
  Record domain := mk_domain {
    d_cells : list Z;        (* self.cells (after partial-load reduction) *)
    d_lower : list F;
    d_upper : list F;
    d_nc : Z;                (* self.num_comps *)
    d_asize : Z;             (* self.asize *)
    d_orig : list Z;         (* self.orig_size_array[:-1] *)
    d_orig_nc : Z;           (* self.orig_size_array[-1] *)
    d_goff : list (Z * Z);   (* self.global_offsets[:-1] *)
    d_goff_c : Z * Z         (* self.global_offsets[-1] *)
  }.

  (** gkyl_reader.py 253-266 (and 269-282): offsets from one cut string; [n] is
      the number of cells (components). *)
  Definition parse_cut (sl : string) (n : Z) : res (Z * Z) :=
    if is_digits sl then let* k := py_int sl in Ok (k, n - k - 1)
    else if has_char ":" sl then
      match split_on ":" sl with
      | [start; stop] =>
          let* g0 := (if String.eqb start "" then Ok 0 else py_int start) in
          let* g1 := (if String.eqb stop "" then Ok 0
                      else let* k := py_int stop in
                           Ok (if 0 <? k then n - k else - k)) in
          Ok (g0, g1)
      | _ => Err ValueError   (* too many values to unpack *)
      end
    else Ok (0, 0).

  (** Everything read before the partial-load adjustment,
      gkyl_reader.py 217-244.  A short read of cells or bounds, which numpy
      would report only later, is an error here at once. *)
  Definition read_domain_raw (s : rst) : res (Z * list Z * list F * list F * Z * Z * Z) :=
    let w := Z.of_nat (r_w s) in
    let* nd := read_i64 f (r_off s) in
    if nd <? 0 then Err ValueError else
    let o := r_off s + 8 in
    let* cells := read_i64s f nd o in
    let o := o + nd * 8 in
    let* lo := fromfile f (r_w s) nd o in
    let o := o + nd * w in
    let* up := fromfile f (r_w s) nd o in
    let o := o + nd * w in
    let* esz := read_i64 f o in
    let nc := Z.quot esz w in
    let o := o + 8 in
    let* asz := read_i64 f o in
    let o := o + 8 in
    if ((Z.of_nat (length cells) =? nd) && (Z.of_nat (length lo) =? nd)
        && (Z.of_nat (length up) =? nd))%bool
    then Ok (nd, cells, List.map (fdec fo (r_w s)) lo, List.map (fdec fo (r_w s)) up, nc, asz, o)
    else Err ValueError.

  (** gkyl_reader.py 284-288 *)
  Definition apply_cuts (cells : list Z) (lo up : list F) (nc asz : Z)
             (goff : list (Z * Z)) (gc : Z * Z) : domain :=
    let csz := map2 (fun lu n => fdiv fo (fsub fo (snd lu) (fst lu)) (fofZ fo n))
                    (combine lo up) cells in
    mk_domain (map2 (fun n g => n - (snd g + fst g)) cells goff)
      (map2 (fun l gs => fadd fo l (fmul fo (fofZ fo (fst (fst gs))) (snd gs))) lo (combine goff csz))
      (map2 (fun u gs => fsub fo u (fmul fo (fofZ fo (snd (fst gs))) (snd gs))) up (combine goff csz))
      (nc - (snd gc + fst gc)) asz cells nc goff gc.

  (** gkyl_reader.py 214-290.  [cuts] is [None] without partial loading,
      otherwise [self.partial_idxs] (seven strings, the last one for the
      components). *)
  Definition read_domain (cuts : option (list string)) (s : rst) : res (domain * rst) :=
    let* x := read_domain_raw s in
    let '(nd, cells, lo, up, nc, asz, o) := x in
    let s' := mk_rst o (r_w s) (r_type s) (r_ver s) (r_ctx s) in
    match cuts with
    | None => Ok (mk_domain cells lo up nc asz cells nc [] (0, 0), s')
    | Some ps =>
        let* goff := mapM (fun i =>
            match nth_error ps i, nth_error cells i with
            | Some sl, Some n => parse_cut sl n
            | _, _ => Err IndexError
            end) (seq 0 (Z.to_nat nd)) in
        let* gc := match nth_error ps 6 with
                   | Some sl => parse_cut sl nc | None => Err IndexError end in
        Ok (apply_cuts cells lo up nc asz goff gc, s')
    end.

  (** gkyl_reader.py 292-314.  [dims] lists per dimension the leading skip, the
      number of cells read, the trailing skip and [np.prod(num_elems[dim+1:])];
      [c0], [nc], [c1] the same for the components.  The output array is filled
      from index 0 without gaps, so it is modelled as the list of what is
      written.  A read of one item is broadcast by numpy to all components. *)
  Fixpoint get_block (w : nat) (dims : list (Z * Z * Z * Z)) (c0 nc c1 : Z) (off : Z)
    : res (Z * list F) :=
    match dims with
    | [] =>
        let o1 := off + c0 * Z.of_nat w in
        let* items := fromfile f w nc o1 in
        let xs := List.map (fdec fo w) items in
        let* ys := (if Z.of_nat (length xs) =? nc then Ok xs
                    else match xs with
                         | [x] => Ok (repeat x (Z.to_nat nc))
                         | _ => Err ValueError
                         end) in
        Ok (o1 + (nc + c1) * Z.of_nat w, ys)
    | (s0, n, s1, p) :: rest =>
        let o1 := off + s0 * p * Z.of_nat w in
        let* r := (fix loop (k : nat) (o : Z) : res (Z * list F) :=
                     match k with
                     | O => Ok (o, [])
                     | S k' => let* a := get_block w rest c0 nc c1 o in
                               let* b := loop k' (fst a) in
                               Ok (fst b, snd a ++ snd b)
                     end) (Z.to_nat n) o1 in
        Ok (fst r + s1 * p * Z.of_nat w, snd r)
    end.

  (** [np.prod]. data/gkyl_reader.py 306, 311, 361. *)
  Definition zprod (l : list Z) : Z := fold_right Z.mul 1 l.

  (** Suffix products [np.prod(num_elems[dim+1:])]. *)
  Fixpoint tails_prod (l : list Z) : list Z :=
    match l with [] => [] | _ :: l' => zprod l' :: tails_prod l' end.

  (** [x.clip(min=m)]. data/gkyl_reader.py 352, 366, 367. *)
  Definition clip (m x : Z) : Z := Z.max m x.

  (** [out.reshape(gshape)]. data/gkyl_reader.py 375. *)
  Definition reshape (gshape : list Z) (l : list F) : res (nda F) :=
    if (forallb (fun n => 0 <=? n) gshape && (Z.of_nat (length l) =? zprod gshape))%bool
    then Ok (mk_nda (List.map Z.to_nat gshape) l)
    else Err ValueError.

  (** gkyl_reader.py 316-376.  Result: the block ([None] for the empty array of
      line 359), the slices where it goes, the new offset.  [rng] are
      [lo_idx], [up_idx] when given. *)
  Definition get_data (partial : bool) (d : domain) (w : nat) (count : Z)
      (rng : option (list Z * list Z)) (off : Z)
    : res (option (nda F) * list (Z * Z) * Z) :=
    if negb partial then
      let* items := fromfile f w count off in
      let out := List.map (fdec fo w) items in
      let off' := off + count * Z.of_nat w in
      match rng with
      | Some (lo, up) =>
          let* a := reshape (map2 (fun l u => u - l + 1) lo up ++ [d_nc d]) out in
          Ok (Some a, map2 (fun l u => (l - 1, u)) lo up, off')
      | None =>
          let* a := reshape (d_cells d ++ [d_nc d]) out in
          Ok (Some a, [], off')
      end
    else
      let lo := match rng with Some (lo, _) => lo | None => List.map (fun _ => 1) (d_orig d) end in
      let up := match rng with Some (_, up) => up | None => d_orig d end in
      let doff := map2 (fun gn lu =>
          (clip 0 (fst (fst gn) - (fst lu - 1)), clip 0 (snd (fst gn) - (snd gn - snd lu))))
          (combine (d_goff d) (d_orig d)) (combine lo up) in
      let c0 := clip 0 (fst (d_goff_c d)) in
      let c1 := clip 0 (snd (d_goff_c d)) in
      let nel := map2 (fun l u => u - l + 1) lo up in
      let cells := map2 (fun n g => n - snd g - fst g) nel doff in
      if existsb (fun c => c <? 1) cells then
        Ok (None, [], off + count * Z.of_nat w)
      else if zprod cells * d_nc d <? 0 then Err ValueError
      else
        let dims := map2 (fun gc p => (fst (fst gc), snd gc, snd (fst gc), p))
                         (combine doff cells) (tails_prod (nel ++ [d_orig_nc d])) in
        let* r := get_block w dims c0 (d_nc d) c1 off in
        let lo' := map2 (fun l g => clip 1 (l - fst g)) lo (d_goff d) in
        let up' := map2 (fun u gd => clip 1 (u - fst (fst gd) - snd (snd gd))) up
                        (combine (d_goff d) doff) in
        let* a := reshape (map2 (fun l u => u - l + 1) lo' up' ++ [d_nc d]) (snd r) in
        Ok (Some a, map2 (fun l u => (l - 1, u)) lo' up', fst r).

  (** gkyl_reader.py 378-381 *)
  Definition read_t1 (partial : bool) (d : domain) (s : rst) : res (option (nda F)) :=
    let* r := get_data partial d (r_w s) (d_asize d * d_nc d) None (r_off s) in
    Ok (fst (fst r)).

  (** [data[slices] = block] for one contiguous range per axis: [(first,
      length)] pairs. data/gkyl_reader.py 413. *)
  Fixpoint put_flat {A} (sh : list nat) (rs : list (nat * nat)) (l blk : list A) : list A :=
    match sh, rs with
    | n :: sh', (a, m) :: rs' =>
        let p := Prelude.prod sh' in
        let q := Prelude.prod (List.map snd rs') in
        flat_map (fun i =>
          let row := firstn p (skipn (i * p) l) in
          if ((a <=? i) && (i <? a + m))%nat
          then put_flat sh' rs' row (firstn q (skipn ((i - a) * q) blk))
          else row) (seq 0 n)
    | _, _ => blk
    end.

  (** The range of positions [x[a:b]] selects, as first and length. data/gkyl_reader.py 331, 373, 413. *)
  Definition slice_range (n : nat) (ab : Z * Z) : nat * nat :=
    let lo := adjust_pos (Z.of_nat n) (fst ab) in
    let hi := adjust_pos (Z.of_nat n) (snd ab) in
    (Z.to_nat lo, Z.to_nat (hi - lo)).

  (** [data[slices] = block]; numpy's broadcasting of unequal shapes is not
      modelled (error). data/gkyl_reader.py 413. *)
  Definition assign (data : nda F) (slices : list (Z * Z)) (blk : nda F) : res (nda F) :=
    let rs := map2 slice_range (shape data) slices
              ++ List.map (fun n => (0%nat, n)) (skipn (length slices) (shape data)) in
    if list_eq_dec Nat.eq_dec (List.map snd rs) (shape blk)
    then Ok (mk_nda (shape data) (put_flat (shape data) rs (flat data) (flat blk)))
    else Err ValueError.

  (** gkyl_reader.py 396-414: the loop over the stored ranges. *)
  Fixpoint t3_loop (partial : bool) (d : domain) (w : nat) (n : nat) (off : Z) (data : nda F)
    : res (nda F) :=
    match n with
    | O => Ok data
    | S n' =>
        let nd := Z.of_nat (length (d_orig d)) in
        let* lo := read_i64s f nd off in
        let* up := read_i64s f nd (off + nd * 8) in
        let* asz := read_i64 f (off + nd * 16) in
        if ((Z.of_nat (length lo) =? nd) && (Z.of_nat (length up) =? nd))%bool then
          let* r := get_data partial d w (asz * d_orig_nc d) (Some (lo, up)) (off + nd * 16 + 8) in
          let '(blk, slices, off') := r in
          let* data' := match blk with
                        | None => Ok data
                        | Some b => match shape b with
                                    | O :: _ => Ok data      (* len(data_block) == 0 *)
                                    | _ => assign data slices b
                                    end
                        end in
          t3_loop partial d w n' off' data'
        else Err ValueError
    end.

  (** gkyl_reader.py 383-416 *)
  Definition read_t3 (partial : bool) (d : domain) (s : rst) : res (nda F) :=
    let* nr := read_i64 f (r_off s) in
    let gshape := d_cells d ++ [d_nc d] in
    if forallb (fun n => 0 <=? n) gshape then
      let sh := List.map Z.to_nat gshape in
      t3_loop partial d (r_w s) (Z.to_nat nr) (r_off s + 8)
              (mk_nda sh (repeat (fzero fo) (Prelude.prod sh)))
    else Err ValueError.

  (** gkyl_reader.py 418-457: the chunk loop.  Result: times, rows (as one flat
      list with its number of components) and final state.  The loop ends when
      the offset reaches the end of the file; [fuel] bounds the number of
      chunks (a file of [n] bytes holds fewer than [n] chunks).  [np.append]
      along axis 0 needs equal numbers of components. *)
  Fixpoint t2_loop (fuel : nat) (s : rst) (cells : Z) (time : list F) (data : list F) (dnc : Z)
    : res (list F * list F * Z * Z * rst) :=
    match fuel with
    | O => Err OutOfFuel
    | S fuel' =>
        let w := r_w s in
        let* esz := read_i64 f (r_off s) in
        let nc := Z.quot esz (Z.of_nat w) in
        let* lc := read_i64 f (r_off s + 8) in
        let o := r_off s + 16 in
        let* lt := fromfile f w lc o in
        let o := o + lc * 8 in
        let* raw := fromfile f w (nc * lc) o in
        let o := o + lc * esz in
        if ((0 <=? lc) && (0 <=? nc) && (Z.of_nat (length raw) =? nc * lc))%bool then
          let time' := time ++ List.map (fdec fo w) lt in
          let* data' := (if cells =? 0 then Ok (List.map (fdec fo w) raw)
                         else if dnc =? nc then Ok (data ++ List.map (fdec fo w) raw)
                         else Err ValueError) in
          let s' := mk_rst o w (r_type s) (r_ver s) (r_ctx s) in
          if Z.of_nat (length f) <=? o then Ok (time', data', nc, cells + lc, s')
          else
            let* s2 := read_header s' in
            if r_type s2 =? 2 then t2_loop fuel' s2 (cells + lc) time' data' nc
            else Err TypeError
        else Err ValueError   (* reshape *)
    end.

  (** Result of [preload] followed by [load]. data/gkyl_reader.py 461-558. *)
  Record loaded := mk_loaded {
    l_grid : list (list F);
    l_data : nda F;
    l_cells : list Z;
    l_lower : list F;
    l_upper : list F;
    l_nc : Z;
    l_ctx : list (string * M)
  }.

  (** [np.linspace(lo, up, n + 1)] *)
  Definition linspace (lo up : F) (n : nat) : list F :=
    match n with
    | O => [lo]
    | _ =>
        let step := fdiv fo (fsub fo up lo) (fofZ fo (Z.of_nat n)) in
        List.map (fun i => fadd fo (fmul fo (fofZ fo (Z.of_nat i)) step) lo) (seq 0 n) ++ [up]
    end.

  (** gkyl_reader.py 541-552: ghost-cell adjustment of one dimension. *)
  Definition ghost_adjust (c : Z) (lo up : F) (n : nat) : Z * F * F :=
    let z := Z.of_nat n in
    if c =? z then (c, lo, up)
    else
      let dz := fdiv fo (fsub fo up lo) (fofZ fo c) in
      let ngl := (c - z) / 2 in                  (* floor *)
      let ngu := - ((- (c - z)) / 2) in          (* ceil *)
      (z, fsub fo lo (fmul fo (fofZ fo ngl) dz), fadd fo up (fmul fo (fofZ fo ngu) dz)).

  (** gkyl_reader.py 461-559 without mapping files ([c2p], [c2p_vel] empty).
      [cuts] as in [read_domain].  A file of type 2 ignores partial loading; its
      bounds (smallest and largest time) are not modelled. *)
  Definition load (cuts : option (list string)) (ctx : list (string * M)) : res loaded :=
    let* s := read_header (init_rst ctx) in
    if ((r_type s =? 1) || (r_type s =? 3) || (r_ver s =? 0))%bool then
      let* ds := read_domain cuts s in
      let '(d, s1) := ds in
      let partial := match cuts with Some _ => true | None => false end in
      let* data := (if ((r_type s1 =? 1) || (r_ver s1 =? 0))%bool then
                      let* b := read_t1 partial d s1 in
                      match b with
                      | Some a => Ok a
                      | None => Ok (mk_nda [0%nat] [])       (* np.array([]) *)
                      end
                    else read_t3 partial d s1) in
      let* adj := mapM (fun k =>
          match nth_error (d_cells d) k, nth_error (d_lower d) k, nth_error (d_upper d) k,
                nth_error (shape data) k with
          | Some c, Some lo, Some up, Some n => Ok (ghost_adjust c lo up n)
          | _, _, _, _ => Err IndexError
          end) (seq 0 (length (d_cells d))) in
      let cs := List.map (fun x => fst (fst x)) adj in
      let los := List.map (fun x => snd (fst x)) adj in
      let ups := List.map snd adj in
      let* grid := mapM (fun x => let '(c, lo, up) := x in
                          if c + 1 <? 0 then Err ValueError
                          else if c + 1 =? 0 then Ok [] else Ok (linspace lo up (Z.to_nat c))) adj in
      Ok (mk_loaded grid data cs los ups (d_nc d) (r_ctx s1))
    else if r_type s =? 2 then
      let* r := t2_loop (length f) s 0 [] [] 0 in
      let '(time, data, nc, cells, s2) := r in
      match time with
      | [] => Err ValueError      (* time.min() of an empty array *)
      | _ =>
      Ok (mk_loaded [time] (mk_nda [Z.to_nat cells; Z.to_nat nc] data) [cells] [] [] nc (r_ctx s2))
      end
    else Err TypeError.
End Reader.

Arguments mk_loaded {F M}.
Arguments l_grid {F M}. Arguments l_data {F M}. Arguments l_cells {F M}. Arguments l_lower {F M}.
Arguments l_upper {F M}. Arguments l_nc {F M}. Arguments l_ctx {F M}.

(** ** Writer *)

(** Little-endian bytes of an integer, [n] of them. Used by the writer, data/gdata.py 549-582. *)
Fixpoint le_bytes (n : nat) (z : Z) : list Z :=
  match n with O => [] | S n' => (z mod 256) :: le_bytes n' (z / 256) end.

(** An int64 as written by [np.array([z], dtype="i8").tofile]. *)
Definition enc_i64 (z : Z) : list Z := le_bytes 8 z.

(** gdata.py 549-580, extension "gkyl": [cells], [lo], [up], [nc] are what the
    dataset reports, [vals] the value array; [enc] gives the eight bytes of a
    double. *)
Definition write_gkyl {F} (enc : F -> list Z) (cells : list Z) (lo up : list F) (nc : Z)
           (vals : nda F) : list Z :=
  magic
  ++ enc_i64 1                                   (* version *)
  ++ enc_i64 1                                   (* file type *)
  ++ enc_i64 0                                   (* meta size *)
  ++ enc_i64 2                                   (* real type *)
  ++ enc_i64 (Z.of_nat (length cells))           (* num dims *)
  ++ flat_map enc_i64 cells
  ++ flat_map enc lo
  ++ flat_map enc up
  ++ enc_i64 (nc * 8)                            (* elem_sz *)
  ++ enc_i64 (Z.of_nat (Prelude.prod (shape vals)))      (* np.size(values) *)
  ++ flat_map enc (flat vals).
