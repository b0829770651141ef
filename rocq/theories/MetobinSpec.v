(** The vocabulary of the properties of meteobin files. *)
From Coq Require Import ZArith Reals List Bool.
From Verif Require Import Base F32 F32Facts Grib2Model GeoModel ChartModel ChartSpec.
Import ListNotations.
Open Scope Z_scope.

(** ** Layout *)

(** [n] bytes of a file from an offset on. *)
Definition slice (data : bytes) (off n : Z) : bytes := firstn (Z.to_nat n) (skipn (Z.to_nat off) data).
Definition size (data : bytes) : Z := Z.of_nat (length data).
(** A file of w x h records of k bytes each, row by row; the record of cell (x,y) meets [P x y]. *)
Definition laid_out (k w h : Z) (data : bytes) (P : Z -> Z -> bytes -> Prop) : Prop :=
  size data = k * (w * h) /\
  (forall x y, 0 <= x < w -> 0 <= y < h -> P x y (slice data (k * (y * w + x)) k)).

(** ** Numbers stored in a byte *)

(** The integer nearest to [r], half away from zero, held within [lo] and [hi]. *)
Definition nearest_within (lo hi : Z) (r : R) : Z := Z.max lo (Z.min hi (Zround r)).
(** The integer part of [r] held within 0 and 255. *)
Definition floor_within (r : R) : Z := Z.max 0 (Z.min 255 (Flocq.Core.Raux.Zfloor r)).
(** [r] held within [lo] and [hi]. *)
Definition within (lo hi r : R) : R := Rmax lo (Rmin hi r).
(** A speed in m/s as knots and a length in m as feet, with the constants of the program; exact. *)
Definition in_knots (v : f32) : R := (xr v * decimal 194384 100000)%R.
Definition in_feet (m : f32) : R := (xr m * decimal 328084 100000)%R.

(** The weather interpretations with their codes (WMO table 4677). *)
Definition wmo_table : list (Z * weather) :=
  [(0, ClearSky); (1, MainlyClearSky); (2, PartlyCloudy); (3, Overcast);
   (45, Fog); (48, FogDepositingRime);
   (51, SlightDrizzle); (53, ModerateDrizzle); (55, HeavyDrizzle); (56, DrizzleFreezingSlight); (57, DrizzleFreezingModerateOrHeavy);
   (61, SlightRainNotFreezing); (63, ModerateRainNotFreezing); (65, HeavyRainNotFreezing); (66, RainFreezingSlight); (67, RainFreezingModerateOrHeavy);
   (71, SlightFallOfSnowflakes); (73, ModerateFallOfSnowflakes); (75, HeavyFallOfSnowflakes); (77, SnowGrains);
   (80, RainShowerSlight); (81, RainShowerModerateOrHeavy); (82, RainShowerViolent); (85, SnowShowerSlight); (86, SnowShowerModerateOrHeavy);
   (95, ThunderstormSlightOrModerate); (96, ThunderstormWithHailOrHeavyThunderstorm); (99, ThunderstormWithHeavyRain)].
Definition wmo_codes : list Z := map fst wmo_table.
(** The code of a sky without significant weather. *)
Definition sky_code (cover : R) (code : Z) : Prop :=
  ((cover <= 6.25 / 100)%R /\ code = 0) \/ ((6.25 / 100 < cover <= 43.75 / 100)%R /\ code = 1) \/
  ((43.75 / 100 < cover <= 81.25 / 100)%R /\ code = 2) \/ ((81.25 / 100 < cover)%R /\ code = 3).

(** ** Vertical levels *)

(** What a grid of bytes holds for a value of a document ([None] if the document has none there) when
    read with transformation [f] and missing value [m]: nothing if there is none, and also (a finding)
    if the byte happens to be [m]. *)
Definition stored (m : Z) (f : f32 -> Z) (raw : option f32) : option Z :=
  match raw with Some v => if f v =? m then None else Some (f v) | None => None end.
(** The byte in the file: 255 stands for missing. *)
Definition file_byte (o : option Z) : Z := match o with Some b => b | None => 255 end.
(** One grid per document, each w x h, and the plain values of the documents. *)
Definition levels_of (read : document -> outcome (value_grid Z)) (points : document -> outcome (list (option f32)))
  (w h : Z) (docs : list document) (grids : list (value_grid Z)) (raws : list (list (option f32))) : Prop :=
  Forall2 (fun d g => read d = Ok g /\ dims g = (w, h)) docs grids /\
  Forall2 (fun d raw => points d = Ok raw /\ Z.of_nat (length raw) = w * h) docs raws.
(** The value of cell (x,y) at a level. *)
Definition raw_at (raws : list (list (option f32))) (w x y level : Z) : option f32 :=
  nth (Z.to_nat (y * w + x)) (nth (Z.to_nat level) raws []) None.
