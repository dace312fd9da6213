(** * Model of the ADIOS and HDF5 readers, of grids read from mapping files and
    of the choice of a reader
    (data/gkyl_adios_reader.py, data/gkyl_h5_reader.py, data/gkyl_reader.py,
    data/gdata.py).

    The libraries [adios2] and [tables] are not modelled: a file is the list of
    its variables with their arrays, and its attributes.  Coordinates and bounds
    are rationals, so rounding is not modelled.  Values are elements of an
    arbitrary type. *)
From Coq Require Import String Ascii List ZArith NArith QArith Bool Lia.
From Verif Require Import Prelude NdArray GData_Model Select_Model Sort.
Import ListNotations.
Open Scope list_scope.

(** One entry of each of the attributes [lower], [upper], [cells] of a reader.
    The three always have one entry per dimension here.
    data/gkyl_adios_reader.py 144-146, data/gkyl_h5_reader.py 52-54. *)
Record dim := mk_dim { d_lo : Q; d_up : Q; d_n : nat }.

(** [(upper - lower) / cells]; a dimension without cells (division by zero in
    the code) gets 0. *)
Definition dwidth (x : dim) : Q := (d_up x - d_lo x) / inject_Z (Z.of_nat (d_n x)).

(** [np.linspace(lower, upper, cells + 1)] (gkyl_adios_reader.py 198, 263-266,
    gkyl_h5_reader.py 108). *)
Definition dnodes (x : dim) : list Q :=
  List.map (fun k => d_lo x + inject_Z (Z.of_nat k) * dwidth x) (seq 0 (S (d_n x))).

Definition gline (l : list Q) : garr := mk_nda [length l] l.

(** gkyl_adios_reader.py 253-262, the same lines as gkyl_reader.py 542-551: the
    adjustment of one dimension to the number of cells found in the data. *)
Definition ghost_dim (x : dim) (n : nat) : dim :=
  if (d_n x =? n)%nat then x
  else
    let diff := (Z.of_nat (d_n x) - Z.of_nat n)%Z in
    let ngl := (diff / 2)%Z in
    let ngu := (- ((- diff) / 2))%Z in
    mk_dim (d_lo x - inject_Z ngl * dwidth x) (d_up x + inject_Z ngu * dwidth x) n.

Section Adios.
  Variable pfloat : string -> option Q.
  Context {A : Type}.

  (** gkyl_adios_reader.py 105-114 and 120-128: offset and count of one cut. *)
  Definition cut_range (z : ival) (g : option garr) : res (Z * Z) :=
    let* i := idx_parser pfloat z g false in
    match i with
    | IInt k => Ok (k, 1%Z)
    | ISlice a b => Ok (a, (b - a)%Z)
    | ITuple _ => Err TypeError
    end.

  (** gkyl_adios_reader.py 103-117: the loop over the cuts, from axis [d] on;
      [sh] are the sizes of the axes that are left, without the components.
      Without grids [grid[d]] is a [TypeError]. *)
  Fixpoint axis_ranges (d : nat) (sh : list nat) (zs : list (option ival)) (grid : option (list garr))
    : res (list (Z * Z)) :=
    match sh with
    | [] => Ok []
    | n :: sh' =>
        let* r := match hd None zs with
                  | None => Ok (0%Z, Z.of_nat n)
                  | Some z =>
                      match grid with
                      | None => Err TypeError
                      | Some gs => let* g := nth_res gs d in cut_range z (Some g)
                      end
                  end in
        let* rs := axis_ranges (S d) sh' (tl zs) grid in
        Ok (r :: rs)
    end.

  (** [cnt > 0] (line 133): some cut applies. *)
  Definition any_cut (nd : nat) (zs : list (option ival)) (comp : option ival) : bool :=
    existsb (fun z => match z with Some _ => true | None => false end) (firstn nd zs)
    || match comp with Some _ => true | None => false end.

  (** gkyl_adios_reader.py 97-137: pairs (offset, count), one per axis; [None]
      stands for the empty tuples. *)
  Definition offset_count (sh : list nat) (zs : list (option ival)) (comp : option ival)
             (grid : option (list garr)) : res (option (list (Z * Z))) :=
    match rev sh with
    | [] => Err ValueError
    | nc :: _ =>
        let* rs := axis_ranges 0 (removelast sh) zs grid in
        let* rc := match comp with
                   | None => Ok (0%Z, Z.of_nat nc)
                   | Some c => cut_range c None
                   end in
        Ok (if any_cut (length sh - 1) zs comp then Some (rs ++ [rc]) else None)
    end.

  (** [fh.read(name, start=offset, count=count)] of adios2 (assumed): empty
      tuples read everything; negative numbers cannot be converted
      ([TypeError]); a block that leaves the variable is refused
      ([ValueError]). *)
  Definition read_block (v : nda A) (oc : option (list (Z * Z))) : res (nda A) :=
    match oc with
    | None => Ok v
    | Some l =>
        if negb (length l =? length (shape v))%nat then Err ValueError
        else if existsb (fun r => (fst r <? 0) || (snd r <? 0))%Z l then Err TypeError
        else if forallb (fun rn => (fst (fst rn) + snd (fst rn) <=? Z.of_nat (snd rn))%Z)
                        (combine l (shape v))
             then Ok (take (List.map (fun r => seq (Z.to_nat (fst r)) (Z.to_nat (snd r))) l) v)
             else Err ValueError
    end.

  (** gkyl_adios_reader.py 204-232, for the grid type "uniform" (the one set
      by the constructor; with "mapped" the code refers to a missing
      attribute). *)
  Definition shift_dim (x : dim) (r : Z * Z) : dim :=
    let lo := d_lo x + inject_Z (fst r) * dwidth x in
    mk_dim lo (lo + inject_Z (snd r) * dwidth x) (Z.to_nat (snd r)).

  Definition shift_dims (dims : list dim) (oc : option (list (Z * Z))) : res (list dim) :=
    match oc with
    | None => Ok dims
    | Some l => if (length l <? length dims)%nat then Err ValueError
                else Ok (map2 shift_dim dims l)
    end.

  (** gkyl_adios_reader.py 253-262 for all dimensions.  After a partial load
      [cells] is a tuple, so an adjustment would raise. *)
  Fixpoint ghost_dims (partial : bool) (dims : list dim) (sh : list nat) : res (list dim) :=
    match dims, sh with
    | [], _ => Ok []
    | _ :: _, [] => Err IndexError
    | x :: dims', n :: sh' =>
        let* y := if partial && negb (d_n x =? n)%nat then Err TypeError else Ok (ghost_dim x n) in
        let* ys := ghost_dims partial dims' sh' in
        Ok (y :: ys)
    end.

  (** Variables of a file: names with arrays.
      [fh.read(name)], data/gkyl_adios_reader.py 202, 240 and 291-295. *)
  Definition lookup {B} (name : string) (vars : list (string * B)) : option B :=
    option_map snd (find (fun kv => String.eqb (fst kv) name) vars).

  (** gkyl_adios_reader.py 176-273 without a mapping file, after
      [_preload_frame], with [ctx] as left behind for [GData]: [preload] (lines
      312-319) stores the arrays [cells], [lower], [upper] themselves, lines
      208-221 bind new ones, lines 258-260 change the old ones in place; [load]
      (line 339) stores the number of components of what was read.  Not in
      [click_mode]: the message for a missing variable uses an unbound name
      (line 192). *)
  Definition load_frame (dims : list dim) (vars : list (string * nda A)) (var : string)
             (zs : list (option ival)) (comp : option ival) : res (gdata A) :=
    match lookup var vars with
    | None => Err UnboundLocalError
    | Some v =>
        let grid := List.map (fun x => gline (dnodes x)) dims in
        let* oc := offset_count (shape v) zs comp (Some grid) in
        let* data := read_block v oc in
        let* dims1 := shift_dims dims oc in
        let partial := match oc with None => false | Some _ => true end in
        let* dims2 := ghost_dims partial dims1 (shape data) in
        let kept := if partial then dims else dims2 in
        Ok (mk_gdata (Some (List.map (fun x => gline (dnodes x)) dims2)) (Some data)
                     (Some (List.map d_n kept)) (Some (last (shape data) 0%nat))
                     (Some (List.map d_lo kept)) (Some (List.map d_up kept)))
    end.
End Adios.

(** ** Grids from a mapping file *)

(** [tmp[..., int(d*num_coeff) : int((d+1)*num_coeff)]] for the dimension [d]
    of [nd], with [num_coeff = num_comps / nd] (gkyl_adios_reader.py 241-246,
    gkyl_reader.py 506-508; the latter loads the mapping file whole, whatever part
    of the data is loaded).  The quotient is exact here. *)
Definition comp_block (nc nd d : nat) : list nat :=
  seq (d * nc / nd) (S d * nc / nd - d * nc / nd).

Definition c2p_grid {B} (nd : nat) (tmp : nda B) : res (list (nda B)) :=
  match rev (shape tmp) with
  | [] => Err IndexError
  | nc :: _ =>
      if (nd =? 0)%nat then Err ZeroDivisionError
      else Ok (List.map (fun d =>
             take (List.map (seq 0) (removelast (shape tmp)) ++ [comp_block nc nd d]) tmp) (seq 0 nd))
  end.

(** gkyl_adios_reader.py 235-249: the mapping file is read with the same cuts,
    but without a grid to look coordinates up in. *)
Definition load_c2p (pfloat : string -> option Q) {B} (nd : nat) (map : nda B)
           (zs : list (option ival)) : res (list (nda B)) :=
  let* oc := offset_count pfloat (shape map) zs None None in
  let* tmp := read_block map oc in
  c2p_grid nd tmp.

(** gkyl_reader.py 512-539: uniform configuration-space grid [dims] (all
    dimensions of the data) and velocity coordinates from the array [tmp] of the
    mapping file; every velocity coordinate is read along its own axis, at index
    0 of the others. *)
Definition vel_line {B} (tmp : nda B) (nv nc d : nat) : nda B :=
  let pick := List.map (fun jn => if (fst jn =? d)%nat then seq 0 (snd jn) else [0%nat])
                       (combine (seq 0 nv) (removelast (shape tmp))) in
  let t := take (pick ++ [comp_block nc nv d]) tmp in
  mk_nda [nth d (shape tmp) 0%nat; length (comp_block nc nv d)] (flat t).

Definition c2p_vel_grid (dims : list dim) (tmp : nda Q) : res (list garr) :=
  match rev (shape tmp) with
  | [] => Err IndexError
  | nc :: rsh =>
      let nv := length rsh in
      Ok (List.map (fun x => gline (dnodes x)) (firstn (length dims - nv) dims) ++
          List.map (vel_line tmp nv nc) (seq 0 nv))
  end.

(** ** Diagnostics (time traces) in ADIOS files *)

(** The pieces of [re.split("([0-9]+)", key)]: leading text, then digits and
    text alternating. *)
Definition digitc (c : ascii) : bool :=
  let n := nat_of_ascii c in ((48 <=? n) && (n <=? 57))%nat.
Fixpoint chunks (s : string) : string * list (string * string) :=
  match s with
  | EmptyString => (EmptyString, [])
  | String c s' =>
      let '(t, l) := chunks s' in
      if digitc c then
        match t, l with
        | EmptyString, (ds, t1) :: l' => (EmptyString, (String c ds, t1) :: l')
        | _, _ => (EmptyString, (String c EmptyString, t) :: l)
        end
      else (String c t, l)
  end.

(** [text.lower()] for ASCII letters. data/gkyl_adios_reader.py 280. *)
Definition lowerc (c : ascii) : ascii :=
  let n := nat_of_ascii c in if ((65 <=? n) && (n <=? 90))%nat then ascii_of_nat (n + 32) else c.
(** data/gkyl_adios_reader.py 280. *)
Fixpoint lower (s : string) : string :=
  match s with EmptyString => EmptyString | String c s' => String (lowerc c) (lower s') end.

(** gkyl_adios_reader.py 280-281: the sorting key. *)
Definition natural_key (s : string) : string * list (N * string) :=
  let '(t, l) := chunks s in
  (lower t, List.map (fun p => (match digits_val (fst p) with Some n => n | None => 0%N end, lower (snd p))) l).

(** Python's comparison of such lists: text, number, text, ... data/gkyl_adios_reader.py 282. *)
Definition str_ltb (a b : string) : bool :=
  match String.compare a b with Lt => true | _ => false end.
(** data/gkyl_adios_reader.py 282. *)
Fixpoint pairs_leb (l m : list (N * string)) : bool :=
  match l, m with
  | [], _ => true
  | _ :: _, [] => false
  | (n, s) :: l', (k, t) :: m' =>
      if (n =? k)%N then if String.eqb s t then pairs_leb l' m' else str_ltb s t
      else (n <? k)%N
  end.
(** data/gkyl_adios_reader.py 282. *)
Definition key_leb (a b : string * list (N * string)) : bool :=
  if String.eqb (fst a) (fst b) then pairs_leb (snd a) (snd b) else str_ltb (fst a) (fst b).

(** gkyl_adios_reader.py 279-282. *)
Definition natural_sort (l : list string) : list string :=
  List.map snd (isort (fun p q => key_leb (fst p) (fst q)) (List.map (fun s => (natural_key s, s)) l)).

(** [np.append(a, b, axis=0)]: [ValueError] if the numbers of axes or the other
    axes differ. *)
Definition append0 {B} (a b : nda B) : res (nda B) :=
  match shape a, shape b with
  | n :: sh, m :: sh' =>
      if list_eq_dec Nat.eq_dec sh sh' then Ok (mk_nda ((n + m)%nat :: sh) (flat a ++ flat b)) else Err ValueError
  | _, _ => Err ValueError
  end.

(** [np.expand_dims(a, axis=1)] for arrays with one axis (lines 298-300). *)
Definition expand2 {B} (a : nda B) : nda B :=
  match shape a with [n] => mk_nda [n; 1%nat] (flat a) | _ => a end.

(** [np.squeeze]. data/gkyl_adios_reader.py 308, data/gkyl_h5_reader.py 73. *)
Definition squeeze {B} (a : nda B) : nda B :=
  mk_nda (filter (fun n => negb (n =? 1)%nat) (shape a)) (flat a).

(** [fh.read(name)], data/gkyl_adios_reader.py 291-295. *)
Definition read_var {B} (vars : list (string * nda B)) (name : string) : res (nda B) :=
  match lookup name vars with Some a => Ok a | None => Err ValueError end.

(** gkyl_adios_reader.py 289-304. *)
Fixpoint diag_loop {B} (vars : list (string * nda B)) (ts ds : list string) (acc : option (nda B * nda B))
  : res (option (nda B * nda B)) :=
  match ds with
  | [] => Ok acc
  | d :: ds' =>
      match ts with
      | [] => Err IndexError
      | t :: ts' =>
          let* nd := read_var vars d in
          let* nt := read_var vars t in
          match acc with
          | None => diag_loop vars ts' ds' (Some (nt, nd))
          | Some (g, v) =>
              let* v' := append0 v (expand2 nd) in
              let* g' := append0 g nt in
              diag_loop vars ts' ds' (Some (g', v'))
          end
      end
  end.

(** gkyl_adios_reader.py 275-308.  Arrays have at least one axis
    ([np.atleast_1d]). *)
Definition load_diagnostic {B} (vars : list (string * nda B)) : res (nda B * nda B) :=
  let names := List.map fst vars in
  let ts := natural_sort (filter (contains "TimeMesh") names) in
  let ds := natural_sort (filter (contains "Data") names) in
  let* r := diag_loop vars ts ds None in
  match r with
  | None => Err UnboundLocalError
  | Some (g, v) => Ok (squeeze g, v)
  end.

(** ** The legacy HDF5 reader *)

(** What the file holds: a frame (bounds, cells, data) or a diagnostic (times,
    data). data/gkyl_h5_reader.py 34-39 and 47-73. *)
Inductive h5file (A : Type) :=
| H5Frame (dims : list dim) (time : option Q) (data : nda A)
| H5Diag (times : list Q) (data : nda A).
Arguments H5Frame {A}. Arguments H5Diag {A}.

(** gkyl_h5_reader.py 47-113.  [ctx0] says whether the dictionary [ctx] has
    entries when [load] is entered; [_read_frame] may add the time.  A single
    time is squeezed to a scalar, whose shape is empty. *)
Definition h5_load {A} (ctx0 : bool) (f : h5file A) : gdata A :=
  let '(dims, filled, data) :=
    match f with
    | H5Frame dims t data => (dims, (ctx0 || match t with Some _ => true | None => false end)%bool, data)
    | H5Diag ts data =>
        let lo := hd 0%Q ts in
        let up := last ts 0%Q in
        (match ts with [_] => [] | _ => [mk_dim lo up (length ts)] end, ctx0, data)
    end in
  let bounds :=
    match f with
    | H5Frame dims _ _ => (List.map d_lo dims, List.map d_up dims)
    | H5Diag ts _ => ([hd 0%Q ts], [last ts 0%Q])
    end in
  let ncomps := if (length dims <? length (shape data))%nat then last (shape data) 0%nat else 1%nat in
  let grid := List.map (fun x => gline (dnodes x)) dims in
  if filled then mk_gdata (Some grid) (Some data) (Some (List.map d_n dims)) (Some ncomps)
                          (Some (fst bounds)) (Some (snd bounds))
  else mk_gdata (Some grid) (Some data) None None None None.

(** ** Choice of the reader *)

(** gdata.py 107-112: the readers in the order they are tried. *)
Definition readers : list string := ["gkyl"; "adios"; "h5"; "flash"]%string.

(** gdata.py 114-132; [compat] is [is_compatible] of each reader for the file,
    which can also raise: the ADIOS reader only catches [ModuleNotFoundError] and
    [TypeError] (gkyl_adios_reader.py 91-95), the others catch everything.
    Returned: the reader used, and whether [ctx] has entries afterwards, given
    that it was empty ([ctx0 = false]) or not before ([GkylReader] and
    [GkylAdiosReader] store the grid type when they are constructed,
    gkyl_reader.py 133-134, gkyl_adios_reader.py 63-64). *)
Definition sets_grid_type (r : string) : bool := (String.eqb r "gkyl" || String.eqb r "adios")%bool.
Fixpoint try_readers (compat : string -> res bool) (rs : list string) (ctx0 : bool) : res (string * bool) :=
  match rs with
  | [] => Err NameError
  | r :: rs' =>
      let ctx1 := (ctx0 || sets_grid_type r)%bool in
      let* c := compat r in
      if c then Ok (r, ctx1) else try_readers compat rs' ctx1
  end.
Definition choose_reader (reader_name : string) (compat : string -> res bool) (ctx0 : bool) : res (string * bool) :=
  let rs := if existsb (String.eqb reader_name) readers then [reader_name] else readers in
  try_readers compat rs ctx0.

(** The methods of the reader classes ([__init__] and those with a leading
    underscore left out): gkyl_reader.py, gkyl_adios_reader.py,
    gkyl_h5_reader.py and flash_h5_reader.py. *)
Definition reader_methods (r : string) : list string :=
  (if String.eqb r "flash" then ["is_compatible"; "get_data"]
   else ["is_compatible"; "preload"; "load"])%string.

(** gdata.py 134-137: [preload] and, unless [load=False], [load] of the reader
    chosen; [run r m] is what the method [m] of the reader [r] does. *)
Definition call_reader {X} (run : string -> string -> X -> res X) (r m : string) (x : X) : res X :=
  if existsb (String.eqb m) (reader_methods r) then run r m x else Err AttributeError.
Definition open_file {X} (run : string -> string -> X -> res X) (reader_name : string)
    (compat : string -> res bool) (ctx0 load : bool) (x : X) : res X :=
  let* (r, _) := choose_reader reader_name compat ctx0 in
  let* x := call_reader run r "preload" x in
  if load then call_reader run r "load" x else Ok x.
