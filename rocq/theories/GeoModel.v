(** Model of /repo/src/geo: coordinates, extents, regular grids, unstructured grids, and of the
    GRIB2-to-grid converters.  usize and u8 values are non-negative integers of type Z; f32 is
    F32.v.  [chk] is the build profile (overflow checks on or off). *)
From Coq Require Import ZArith List Bool.
From Coq Require Import Floats.SpecFloat.
From Verif Require Import Base F32 Grib2Model.
Import ListNotations.
Open Scope Z_scope.

(** ** common/lat_lon.rs *)

(** common/lat_lon.rs:1-5 *)
Record lat_lon := { lat : f32; lon : f32 }.

(** common/lat_lon.rs:8-11 *)
Definition MIN_LAT : f32 := f32_of_Z (-90).
Definition MAX_LAT : f32 := f32_of_Z 90.
Definition MIN_LON : f32 := f32_of_Z (-180).
Definition MAX_LON : f32 := f32_of_Z 180.
(** common/lat_lon.rs:12-13: the f32 nearest to 85.051129 is 11147822 / 2^17. *)
Definition MERCATOR_MAX_LAT : f32 := S754_finite false 11147822 (-17).
Definition MERCATOR_MIN_LAT : f32 := SFopp MERCATOR_MAX_LAT.

(** common/lat_lon.rs:32-47: both components are treated alike (-180.0 is MIN_LON, 180.0 is
    MAX_LON), so one component is normalised by this function. *)
Definition normalize_deg (x : f32) : f32 :=
  let x1 := if fge x (f32_of_Z 360) || flt x (f32_of_Z (-180))
            then frem_euclid x (f32_of_Z 360) else x in
  if fge x1 (f32_of_Z 180) then fsub x1 (f32_of_Z 360) else x1.
Definition lat_lon_new (la lo : f32) : lat_lon :=
  {| lat := normalize_deg la; lon := normalize_deg lo |}.

(** common/lat_lon.rs:60-66 *)
Definition dist_squared (a b : lat_lon) : f32 :=
  let dlat := fsub (lat a) (lat b) in
  let dlon := fsub (lon a) (lon b) in
  fadd (fmul dlat dlat) (fmul dlon dlon).

(** common/lat_lon.rs:69-73 *)
Definition lat_lon_eqb (a b : lat_lon) : bool := feq (lat a) (lat b) && feq (lon a) (lon b).

(** ** common/lat_lon_extent.rs *)

(** lat_lon_extent.rs:4-7 *)
Record extent := { min_coord : lat_lon; max_coord : lat_lon }.

(** lat_lon_extent.rs:14-17 *)
Definition MERCATOR_EXTENT : extent :=
  {| min_coord := {| lat := MERCATOR_MIN_LAT; lon := MIN_LON |};
     max_coord := {| lat := MERCATOR_MAX_LAT; lon := MAX_LON |} |}.

(** lat_lon_extent.rs:19-31: panics when a minimum exceeds a maximum. *)
Definition extent_new (mn mx : lat_lon) : outcome extent :=
  if fgt (lat mn) (lat mx) || fgt (lon mn) (lon mx) then Panic
  else Ok {| min_coord := mn; max_coord := mx |}.

(** lat_lon_extent.rs:40-45 *)
Definition midpoint (e : extent) : lat_lon :=
  {| lat := fdiv (fadd (lat (min_coord e)) (lat (max_coord e))) (f32_of_Z 2);
     lon := fdiv (fadd (lon (min_coord e)) (lon (max_coord e))) (f32_of_Z 2) |}.

(** lat_lon_extent.rs:47-52 *)
Definition is_inside (e : extent) (p : lat_lon) : bool :=
  fge (lat p) (lat (min_coord e)) && flt (lat p) (lat (max_coord e)) &&
  fge (lon p) (lon (min_coord e)) && flt (lon p) (lon (max_coord e)).

(** lat_lon_extent.rs:60-73: the loop over the coordinates; the accumulator is
    (min_lat, max_lat, min_lon, max_lon). *)
Definition bounding_step (acc : f32 * f32 * f32 * f32) (c : lat_lon) : f32 * f32 * f32 * f32 :=
  let '(mnla, mxla, mnlo, mxlo) := acc in
  (if flt (lat c) mnla then lat c else mnla,
   if fgt (lat c) mxla then lat c else mxla,
   if flt (lon c) mnlo then lon c else mnlo,
   if fgt (lon c) mxlo then lon c else mxlo).
(** lat_lon_extent.rs:54-76 *)
Definition bounding_extent (cs : list lat_lon) : outcome extent :=
  let '(mnla, mxla, mnlo, mxlo) := fold_left bounding_step cs (MAX_LAT, MIN_LAT, MAX_LON, MIN_LON) in
  extent_new (lat_lon_new mnla mnlo) (lat_lon_new mxla mxlo).

(** ** grid/lat_lon_grid.rs *)

(** lat_lon_grid.rs:6-11 *)
Record grid := { g_w : Z; g_h : Z; g_extent : extent; g_lat_inc : f32; g_lon_inc : f32 }.

(** lat_lon_grid.rs:14-26; [dimensions.1 as f32] is correctly rounded. *)
Definition grid_new (w h : Z) (e : extent) : grid :=
  {| g_w := w; g_h := h; g_extent := e;
     g_lat_inc := fdiv (fsub (lat (max_coord e)) (lat (min_coord e))) (f32_of_Z h);
     g_lon_inc := fdiv (fsub (lon (max_coord e)) (lon (min_coord e))) (f32_of_Z w) |}.

(** lat_lon_grid.rs:36-44.  [x + y * w] is computed in Z: for x < w and y < h it is below w*h,
    which fits in usize because the value vector has that many elements. *)
Definition index_by_xy (g : grid) (x y : Z) : option Z :=
  if (g_w g <=? x) || (g_h g <=? y) then None else Some (x + y * g_w g).

(** lat_lon_grid.rs:46-55 *)
Definition xy_by_lat_lon (g : grid) (p : lat_lon) : option (f32 * f32) :=
  if negb (is_inside (g_extent g) p) then None
  else Some (fdiv (fsub (lon p) (lon (min_coord (g_extent g)))) (g_lon_inc g),
             fdiv (fsub (lat p) (lat (min_coord (g_extent g)))) (g_lat_inc g)).

(** lat_lon_grid.rs:57-66 *)
Definition lat_lon_by_xy (g : grid) (x y : f32) : option lat_lon :=
  if flt x fzero || fge x (f32_of_Z (g_w g)) || flt y fzero || fge y (f32_of_Z (g_h g)) then None
  else Some (lat_lon_new
    (fadd (lat (min_coord (g_extent g))) (fmul y (g_lat_inc g)))
    (fadd (lon (min_coord (g_extent g))) (fmul x (g_lon_inc g)))).

(** ** grid/grid_value_type.rs *)

(** grid_value_type.rs:4-10: the trait, with the PartialEq comparison it requires. *)
Record value_type := { carrier : Type; v_zero : carrier; v_scale : carrier -> f32 -> carrier;
  v_add : carrier -> carrier -> carrier; v_eqb : carrier -> carrier -> bool }.

(** [f32::clamp] (self, min, max). *)
Definition fclamp (x lo hi : f32) : f32 :=
  let x1 := if flt x lo then lo else x in if fgt x1 hi then hi else x1.
(** grid_value_type.rs:19-28 *)
Definition u8_scale (v : Z) (factor : f32) : Z :=
  let p := fmul (f32_of_Z v) factor in
  f_to_u8 (fround (if fis_nan p then fzero else fclamp p fzero (f32_of_Z 255))).
(** grid_value_type.rs:31-38 *)
Definition u8_add (a b : Z) : Z := let s := a + b in if 255 <? s then 255 else s.
(** grid_value_type.rs:13-39 *)
Definition u8_type : value_type :=
  {| carrier := Z; v_zero := 0; v_scale := u8_scale; v_add := u8_add; v_eqb := Z.eqb |}.
(** grid_value_type.rs:42-56 *)
Definition f32_type : value_type :=
  {| carrier := f32; v_zero := fzero; v_scale := fmul; v_add := fadd; v_eqb := feq |}.

(** grid_value_type.rs:59-69 *)
Definition grid_value_type_sum (V : value_type) (l : list (carrier V)) : carrier V :=
  fold_left (v_add V) l (v_zero V).

(** ** grid/lat_lon_value_grid.rs *)

(** lat_lon_value_grid.rs:8-12 *)
Record value_grid (T : Type) := { vg_grid : grid; vg_values : list T; vg_missing : T }.
Arguments vg_grid {T} _.
Arguments vg_values {T} _.
Arguments vg_missing {T} _.
(** lat_lon_value_grid.rs:16-25 *)
Definition value_grid_new {T} (values : list T) (missing : T) (w h : Z) (e : extent) : value_grid T :=
  {| vg_grid := grid_new w h e; vg_values := values; vg_missing := missing |}.

(** Vec indexing: panics out of bounds. *)
Definition index_vec {T} (l : list T) (i : Z) : outcome T :=
  match nth_error l (Z.to_nat i) with Some v => Ok v | None => Panic end.

(** lat_lon_value_grid.rs:53-62 *)
Definition value_by_xy (V : value_type) (g : value_grid (carrier V)) (x y : Z)
  : outcome (option (carrier V)) :=
  match index_by_xy (vg_grid g) x y with
  | None => Ok None
  | Some i => omap (fun v => if negb (v_eqb V v (vg_missing g)) then Some v else None)
                   (index_vec (vg_values g) i)
  end.

(** lat_lon_value_grid.rs:65-72 *)
Definition value_by_lat_lon (V : value_type) (g : value_grid (carrier V)) (p : lat_lon)
  : outcome (option (carrier V)) :=
  match xy_by_lat_lon (vg_grid g) p with
  | None => Ok None
  | Some (x0, y0) => value_by_xy V g (f_to_usize (fround x0)) (f_to_usize (fround y0))
  end.

(** ** grid/lat_lon_value_grid_interpolator.rs *)

(** lat_lon_value_grid_interpolator.rs:47-62 *)
Definition interpolate_value (V : value_type) (v1 : option (carrier V)) (w1 : f32)
  (v2 : option (carrier V)) (w2 : f32) : option (carrier V) :=
  match v1, v2 with
  | Some a, Some b => Some (v_add V (v_scale V a w1) (v_scale V b w2))
  | _, _ => None
  end.

(** lat_lon_value_grid_interpolator.rs:10-44 *)
Definition interpolate (V : value_type) (g : value_grid (carrier V)) (p : lat_lon)
  : outcome (option (carrier V)) :=
  match xy_by_lat_lon (vg_grid g) p with
  | None => Ok None
  | Some (x, y) =>
    let xf := ffloor x in let yf := ffloor y in
    let xc := fceil x in let yc := fceil y in
    if flt xc fzero || flt yc fzero || fge xf (f32_of_Z (g_w (vg_grid g))) ||
       fge yf (f32_of_Z (g_h (vg_grid g))) then Ok None
    else
      let x0 := f_to_usize xf in let y0 := f_to_usize yf in
      let x1 := f_to_usize xc in let y1 := f_to_usize yc in
      if (x0 =? x1) || (y0 =? y1) then value_by_xy V g x0 y0
      else
        obind (value_by_xy V g x0 y0) (fun tl =>
        obind (value_by_xy V g x1 y0) (fun tr =>
        obind (value_by_xy V g x0 y1) (fun bl =>
        obind (value_by_xy V g x1 y1) (fun br =>
          let t := interpolate_value V tl (fsub xc x) tr (fsub x xf) in
          let b := interpolate_value V bl (fsub xc x) br (fsub x xf) in
          Ok (interpolate_value V t (fsub yc y) b (fsub y yf))))))
  end.

(** ** grid/coord_dist.rs, grid/coord_dist_triple.rs *)

(** coord_dist.rs:4-7: (coordinate index, squared distance). *)
Definition coord_dist : Type := Z * f32.
(** coord_dist_triple.rs:4-6, 11-15: three slots. *)
Definition triple : Type := list (option coord_dist).
Definition triple_new : triple := [None; None; None].

(** coord_dist_triple.rs:30-40: the search loop from slot [i]; [highest] and [idx] are the
    mutable variables. *)
Fixpoint triple_search (slots : triple) (i : nat) (highest : f32) (idx : option nat) : option nat :=
  match slots with
  | [] => idx
  | Some cd :: rest =>
      if fgt (snd cd) highest then triple_search rest (S i) (snd cd) (Some i)
      else triple_search rest (S i) highest idx
  | None :: _ => Some i
  end.
(** Assignment to a vector or array element. *)
Fixpoint set_nth {T} (i : nat) (v : T) (l : list T) : list T :=
  match l, i with
  | [], _ => []
  | _ :: t, O => v :: t
  | h :: t, S i' => h :: set_nth i' v t
  end.
(** coord_dist_triple.rs:25-47 *)
Definition triple_add (t : triple) (cd : coord_dist) : triple :=
  match triple_search t 0 (snd cd) None with
  | Some i => set_nth i (Some cd) t
  | None => t
  end.
(** coord_dist_triple.rs:49-54 *)
Definition triple_dists (t : triple) : list coord_dist :=
  flat_map (fun o => match o with Some cd => [cd] | None => [] end) t.

(** ** grid/unstructured_grid.rs *)

(** unstructured_grid.rs:8-12 and unstructured_grid1.rs:9-13: [S] is the type of a slot of the
    lookup map, option coord_dist in the former and triple in the latter. *)
Record unstructured (S : Type) := { ug_grid : grid; ug_coords : list lat_lon; ug_map : list S }.
Arguments ug_grid {S} _.
Arguments ug_coords {S} _.
Arguments ug_map {S} _.
(** unstructured_grid.rs:16-29, unstructured_grid1.rs:17-30 *)
Definition unstructured_new {S} (empty : S) (w h : Z) (e : extent) (cs : list lat_lon) : unstructured S :=
  {| ug_grid := grid_new w h e; ug_coords := cs; ug_map := repeat empty (Z.to_nat (w * h)) |}.

(** unstructured_grid.rs:102-130 (the same text at unstructured_grid1.rs:95-123). *)
Definition min_max_xy (chk : bool) (g : grid) (c : lat_lon) (d : f32)
  : outcome ((Z * Z) * (Z * Z)) :=
  let min_pos := lat_lon_new (fsub (lat c) d) (fsub (lon c) d) in
  let max_pos := lat_lon_new (fadd (lat c) d) (fadd (lon c) d) in
  let min_xy := match xy_by_lat_lon g min_pos with
                | Some (x, y) => (f_to_usize x, f_to_usize y)
                | None => (0, 0) end in
  match xy_by_lat_lon g max_pos with
  | Some (x, y) => Ok (min_xy, (f_to_usize x, f_to_usize y))
  | None => obind (usub chk 64 (g_w g) 1) (fun mx =>
            obind (usub chk 64 (g_h g) 1) (fun my => Ok (min_xy, (mx, my))))
  end.

(** unstructured_grid.rs:62-68: outside the extent enlarged by the maximum distance. *)
Definition skipped (g : grid) (d : f32) (c : lat_lon) : bool :=
  flt (lat c) (fsub (lat (min_coord (g_extent g))) d) ||
  fgt (lat c) (fadd (lat (max_coord (g_extent g))) d) ||
  flt (lon c) (fsub (lon (min_coord (g_extent g))) d) ||
  fgt (lon c) (fadd (lon (max_coord (g_extent g))) d).

(** The range [a..=b] of usize. *)
Definition zrange (a b : Z) : list Z :=
  map (fun i => a + Z.of_nat i) (seq 0 (Z.to_nat (b - a + 1))).

(** unstructured_grid.rs:77-84: centre of a cell. *)
Definition cell_centre (g : grid) (x y : Z) : option lat_lon :=
  lat_lon_by_xy g (fadd (f32_of_Z x) (f32_lit 1 2)) (fadd (f32_of_Z y) (f32_lit 1 2)).

Section LookupMap.
  Context {S : Type}.
  (** What happens to the slot of a cell when coordinate [i] at squared distance [d2] (not above
      the maximum) is offered. *)
  Variable offer : Z -> f32 -> S -> S.
  Variable chk : bool.
  Variable g : grid.
  Variable d : f32.

  (** unstructured_grid.rs:73-96, unstructured_grid1.rs:73-89: one cell. *)
  Definition visit_cell (i : Z) (c : lat_lon) (m : list S) (x y : Z) : list S :=
    match index_by_xy g x y with
    | None => m
    | Some idx =>
      match cell_centre g x y with
      | None => m
      | Some p =>
        let d2 := dist_squared c p in
        if fgt d2 (fmul d d) then m
        else match nth_error m (Z.to_nat idx) with
             | Some s => set_nth (Z.to_nat idx) (offer i d2 s) m
             | None => m
             end
      end
    end.
  (** unstructured_grid.rs:61-98: one coordinate.  (An index out of bounds, the [None] branch
      above, cannot occur because the map has w*h slots; proved in GeoProofs.v.) *)
  Definition visit_coord (i : Z) (c : lat_lon) (m : list S) : outcome (list S) :=
    if skipped g d c then Ok m
    else obind (min_max_xy chk g c d) (fun '((x0, y0), (x1, y1)) =>
      Ok (fold_left (fun m x => fold_left (fun m y => visit_cell i c m x y) (zrange y0 y1) m)
                    (zrange x0 x1) m)).
  (** unstructured_grid.rs:60: all coordinates, from index [i] on. *)
  Fixpoint visit_coords (i : Z) (cs : list lat_lon) (m : list S) : outcome (list S) :=
    match cs with
    | [] => Ok m
    | c :: rest => obind (visit_coord i c m) (visit_coords (i + 1) rest)
    end.
End LookupMap.

(** unstructured_grid.rs:88-96 *)
Definition offer_nearest (d : f32) (i : Z) (d2 : f32) (s : option coord_dist) : option coord_dist :=
  let current := match s with Some cd => snd cd | None => fmul d d end in
  if fgt d2 current then s else Some (i, d2).
(** unstructured_grid1.rs:86-88 *)
Definition offer_triple (i : Z) (d2 : f32) (t : triple) : triple := triple_add t (i, d2).

(** unstructured_grid.rs:53-100 and unstructured_grid1.rs:53-93 *)
Definition calc_lookup {S} (offer : Z -> f32 -> S -> S) (chk : bool) (u : unstructured S) (d : f32)
  : outcome (unstructured S) :=
  omap (fun m => {| ug_grid := ug_grid u; ug_coords := ug_coords u; ug_map := m |})
       (visit_coords offer chk (ug_grid u) d 0 (ug_coords u) (ug_map u)).
Definition calc_coord_dist_lookup_map (chk : bool) (u : unstructured (option coord_dist)) (d : f32) :=
  calc_lookup (offer_nearest d) chk u d.
Definition calc_coord_dist_lookup_map1 (chk : bool) (u : unstructured triple) (d : f32) :=
  calc_lookup offer_triple chk u d.

(** unstructured_grid.rs:47-51 *)
Definition get_coord_dist (u : unstructured (option coord_dist)) (x y : Z) : outcome (option coord_dist) :=
  match index_by_xy (ug_grid u) x y with
  | None => Ok None
  | Some i => index_vec (ug_map u) i
  end.

(** ** grid/unstructured_value_grid.rs *)

(** unstructured_value_grid.rs:8-12 *)
Record unstructured_values (S T : Type) :=
  { uv_grid : unstructured S; uv_values : list T; uv_missing : T }.
Arguments uv_grid {S T} _.
Arguments uv_values {S T} _.
Arguments uv_missing {S T} _.

(** unstructured_value_grid.rs:50-63 *)
Definition unstructured_value_by_xy {T} (u : unstructured_values (option coord_dist) T) (x y : Z)
  : outcome (option T) :=
  omap (fun cd => match cd with
                  | None => None
                  | Some (i, _) => nth_error (uv_values u) (Z.to_nat i)
                  end) (get_coord_dist (uv_grid u) x y).

(** unstructured_value_grid.rs:76-88 (and unstructured_value_grid1.rs:84-96); [value] is the
    lookup by cell. *)
Fixpoint collect {A} (l : list (outcome A)) : outcome (list A) :=
  match l with
  | [] => Ok []
  | a :: rest => obind a (fun v => omap (cons v) (collect rest))
  end.
Definition create_regular {T} (w h : Z) (e : extent) (missing : T)
  (value : Z -> Z -> outcome (option T)) : outcome (value_grid T) :=
  omap (fun vs => value_grid_new vs missing w h e)
    (collect (map (fun i => omap (fun o => match o with Some v => v | None => missing end)
                                 (value (Z.of_nat i mod w) (Z.of_nat i / w)))
                  (seq 0 (Z.to_nat (w * h))))).
Definition create_regular_grid {T} (u : unstructured_values (option coord_dist) T)
  : outcome (value_grid T) :=
  create_regular (g_w (ug_grid (uv_grid u))) (g_h (ug_grid (uv_grid u)))
    (g_extent (ug_grid (uv_grid u))) (uv_missing u) (unstructured_value_by_xy u).

(** ** grid/unstructured_value_grid1.rs *)

(** unstructured_value_grid1.rs:45-71.  The sums are the standard library's [Sum]; [sum] is that of
    the value type (for u8 it panics on overflow in checked builds).  Since Rust 1.83 the float
    sum starts from -0.0; the model starts from 0.0, which is the same for every non-empty sum
    that is not itself a zero. *)
Definition fsum (l : list f32) : f32 := fold_left fadd l fzero.
Definition unstructured_value_by_xy1 (V : value_type) (sum : list (carrier V) -> outcome (carrier V))
  (u : unstructured_values triple (carrier V)) (x y : Z) : outcome (option (carrier V)) :=
  match index_by_xy (ug_grid (uv_grid u)) x y with
  | None => Ok None
  | Some i => obind (index_vec (ug_map (uv_grid u)) i) (fun t =>
      match triple_dists t with
      | [] => Ok None
      | ds =>
        let total := fsum (map (fun cd => fsqrt (snd cd)) ds) in
        omap Some (sum (flat_map (fun cd : coord_dist =>
          match nth_error (uv_values u) (Z.to_nat (fst cd)) with
          | Some v => if v_eqb V v (uv_missing u) then []
                      else [v_scale V v (fdiv (fsqrt (snd cd)) total)]
          | None => []
          end) ds))
      end)
  end.
Definition create_regular_grid1 (V : value_type) (sum : list (carrier V) -> outcome (carrier V))
  (u : unstructured_values triple (carrier V)) : outcome (value_grid (carrier V)) :=
  create_regular (g_w (ug_grid (uv_grid u))) (g_h (ug_grid (uv_grid u)))
    (g_extent (ug_grid (uv_grid u))) (uv_missing u) (unstructured_value_by_xy1 V sum u).
(** [Iterator::sum] for f32 and u8. *)
Definition f32_sum (l : list f32) : outcome f32 := Ok (fsum l).
Definition u8_sum (chk : bool) (l : list Z) : outcome Z :=
  fold_left (fun acc v => obind acc (fun a =>
    if 255 <? a + v then (if chk then Panic else Ok ((a + v) mod 256)) else Ok (a + v))) l (Ok 0).

(** ** GRIB2 converters: /repo/src/grib2/converter *)

(** regular_grid_converter.rs:37-53 *)
Definition dimensions_and_extent (d : document) : outcome (Z * Z * extent) :=
  match s3_template (d_s3 d) with
  | LatitudeLongitude t =>
      omap (fun e => (t30_ni t, t30_nj t, e))
        (extent_new (lat_lon_new (t30_first_lat t) (t30_first_lon t))
                    (lat_lon_new (t30_last_lat t) (t30_last_lon t)))
  | UnstructuredGridTpl _ => Err EInvalid
  end.
(** regular_grid_converter.rs:18-33 *)
Definition regular_create_and_transform {T} (powi : f32 -> Z -> f32) (d : document) (missing : T)
  (transform : f32 -> T) : outcome (value_grid T) :=
  obind (calculate_data_points powi d missing transform) (fun values =>
  omap (fun '(w, h, e) => value_grid_new values missing w h e) (dimensions_and_extent d)).

(** grib2_to_grid_converter.rs:8-34: the second length test is redundant. *)
Definition coordinates_from_docs (powi : f32 -> Z -> f32) (lat_doc lon_doc : document)
  : outcome (list lat_lon) :=
  obind (calculate_data_points powi lat_doc (f32_of_Z 255) (fun x => x)) (fun lats =>
  obind (calculate_data_points powi lon_doc (f32_of_Z 255) (fun x => x)) (fun lons =>
    if Nat.eqb (length lats) (length lons)
    then Ok (map (fun '(la, lo) => lat_lon_new la lo) (combine lats lons))
    else Err EInvalid)).

(** unstructured_grid_converter.rs:14-37 *)
Definition unstructured_create {T} (chk : bool) (powi : f32 -> Z -> f32) (d : document)
  (transform : f32 -> T) (missing : T) (cs : list lat_lon) (w h : Z) (e : extent) (dist : f32)
  : outcome (unstructured_values (option coord_dist) T) :=
  obind (calculate_data_points powi d missing transform) (fun values =>
    if negb (Nat.eqb (length cs) (length values)) then Err EInvalid
    else omap (fun g => {| uv_grid := g; uv_values := values; uv_missing := missing |})
           (calc_coord_dist_lookup_map chk (unstructured_new None w h e cs) dist)).

(** file_to_grid_converter.rs:104-110 (also 78-83): one document onto the regular grid. *)
Definition regrid_doc {T} (powi : f32 -> Z -> f32) (missing : T) (transform : f32 -> T)
  (u : unstructured (option coord_dist)) (d : document) : outcome (value_grid T) :=
  obind (calculate_data_points powi d missing transform) (fun values =>
    create_regular_grid {| uv_grid := u; uv_values := values; uv_missing := missing |}).
(** file_to_grid_converter.rs:95-100; a range is given by its inclusive bounds. *)
Definition select_docs {A} (range : option (Z * Z)) (docs : list A) : list A :=
  match range with
  | Some (a, b) => flat_map (fun '(i, d) => if (a <=? Z.of_nat i) && (Z.of_nat i <=? b) then [d] else [])
                     (combine (seq 0 (length docs)) docs)
  | None => docs
  end.
(** rayon's [into_par_iter().map(f).collect::<Result<Vec<_>, _>>()]: the elements are processed in
    any order; the result vector keeps their order; if some fail, the error (or panic) of one of
    them is reported. *)
Inductive par_collect {A B} (f : A -> outcome B) (l : list A) : outcome (list B) -> Prop :=
| par_ok : forall ys, Forall2 (fun x y => f x = Ok y) l ys -> par_collect f l (Ok ys)
| par_err : forall x e, In x l -> f x = Err e -> par_collect f l (Err e)
| par_panic : forall x, In x l -> f x = Panic -> par_collect f l Panic.
(** file_to_grid_converter.rs:87-114 after the file has been read. *)
Definition multi_unstructured {T} (powi : f32 -> Z -> f32) (missing : T) (transform : f32 -> T)
  (u : unstructured (option coord_dist)) (range : option (Z * Z)) (docs : list document)
  : outcome (list (value_grid T)) -> Prop :=
  par_collect (regrid_doc powi missing transform u) (select_docs range docs).
