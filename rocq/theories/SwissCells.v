(** Proofs about the cells of the grids of the Swiss forecasts (C60). *)
From Coq Require Import ZArith Reals List Lia Lra.
From Flocq Require Import Core.Core IEEE754.BinarySingleNaN Relative Div_sqrt_error.
From Verif Require Import Base F32 F32Facts Grib2Model GeoModel GeoSpec GeoRegridProofs ChartModel ChartSpec ForecastModel FetchModel SwissModel SwissSpec.
Import ListNotations.
Open Scope Z_scope.

Lemma swiss_extent_geo e : extent_new (lat_lon_new (f32_lit 4203 100) (f32_lit (-81) 100)) (lat_lon_new (f32_lit 5050 100) (f32_lit 1770 100)) = Ok e -> geo_grid 1851 847 e.
Proof.
  intro E. vm_compute in E. injection E as <-. unfold geo_grid, axis_geo. cbn [min_coord max_coord lat lon].
  unfold xr, SF2R, F2R. cbn. repeat split; try lia; try lra; reflexivity.
Qed.
Lemma swiss_distance : fin (f32_lit 1 100) /\ (0 <= xr (f32_lit 1 100) <= 64)%R.
Proof.
  assert (E : exists x, f32_lit 1 100 = x) by eauto. destruct E as (x & E). rewrite E. vm_compute in E. subst x. split; [split; reflexivity|]. unfold xr, SF2R, F2R. cbn. lra.
Qed.
(** The nearest coordinate in reach of a cell. *)
Lemma c60_cells_proof : forall chk powi fetch T (missing : T) transform e cs u f g,
  extent_new (lat_lon_new (f32_lit 4203 100) (f32_lit (-81) 100)) (lat_lon_new (f32_lit 5050 100) (f32_lit 1770 100)) = Ok e ->
  calc_coord_dist_lookup_map chk (unstructured_new None 1851 847 e cs) (f32_lit 1 100) = Ok u ->
  Forall (clear_of_antimeridian (f32_lit 1 100)) cs -> file_grid chk powi fetch u missing transform f g ->
  exists bs d rest values, fetch (ss_href f) (Ok bs) /\ read_single_doc chk bs = Ok (d, rest) /\
    calculate_data_points powi d missing transform = Ok values /\ dims g = (1851, 847) /\ extent_of g = e /\
    forall x y, 0 <= x < 1851 -> 0 <= y < 847 ->
      (exists i c s, nth_error cs i = Some c /\ nearby (grid_new 1851 847 e) (f32_lit 1 100) c x y s /\
         (forall j c' s', nth_error cs j = Some c' -> nearby (grid_new 1851 847 e) (f32_lit 1 100) c' x y s' ->
            (xr s <= xr s')%R /\ ((i < j)%nat -> (xr s < xr s')%R)) /\
         nth_error (vg_values g) (Z.to_nat (y * 1851 + x)) = Some (nth i values missing)) \/
      ((forall c s, In c cs -> ~ nearby (grid_new 1851 847 e) (f32_lit 1 100) c x y s) /\
         nth_error (vg_values g) (Z.to_nat (y * 1851 + x)) = Some missing).
Proof.
  intros chk powi fetch T missing transform e cs u f g E L C (bs & d & rest & H & Rd & Rg).
  destruct (lookup_map_slots chk 1851 847 e cs (f32_lit 1 100) ltac:(lia) ltac:(lia)) as (mp & E' & Lm & _). pose proof L as L0. rewrite L in E'. injection E' as Eu.
  unfold regrid_doc in Rg. destruct (calculate_data_points powi d missing transform) as [values|?|] eqn:Cd; try discriminate Rg. cbn [obind] in Rg.
  destruct (c20_values_proof T {| uv_grid := u; uv_values := values; uv_missing := missing |}) as (vs & Ec & Lv & W);
    rewrite ?Eu; cbn [uv_grid ug_grid ug_map grid_new g_w g_h]; try lia.
  rewrite Ec in Rg. injection Rg as <-. exists bs, d, rest, values. do 3 (split; [assumption|]). rewrite Eu in *. cbn [uv_grid ug_grid grid_new g_w g_h g_extent uv_missing uv_values] in *.
  split; [reflexivity|]. split; [reflexivity|]. cbn [value_grid_new vg_values]. intros x y X Y. destruct (W x y X Y) as (o & Go & Vo).
  destruct swiss_distance as [Fd Bd].
  destruct (c19_complete_proof chk 1851 847 e cs (f32_lit 1 100) _ x y (swiss_extent_geo e E) Fd Bd C L0 X Y) as [P1 P2]. destruct o as [[i s]|].
  - left. destruct (P1 i s Go) as (Hi & c & Nc & Nb & Mn). exists (Z.to_nat i), c, s. auto.
  - right. split; [exact (P2 Go)|exact Vo].
Qed.
