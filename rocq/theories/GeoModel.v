(** Model of src/dg_commons/geo.py.  Numbers are reals; an SE2value is a 3x3
    array whose last row is 0 0 1, of which the first two rows are kept. *)
From Coq Require Import Reals List Bool.
From Verif Require Import Base R2.
Import ListNotations.
Open Scope R_scope.

(** Used for [norm_between_SE2value], geo.py:32-35; [SE2_interpolate], geo.py:38-44. *)
Record mat := mkM { m00 : R; m01 : R; m02 : R; m10 : R; m11 : R; m12 : R }.

(** np.dot of two such arrays; SE2.multiply.
    Used for [SE2_interpolate], geo.py:38-44; [relative_pose], geo.py:54-57. *)
Definition mmul (a b : mat) : mat :=
  mkM (m00 a * m00 b + m01 a * m10 b) (m00 a * m01 b + m01 a * m11 b) (m00 a * m02 b + m01 a * m12 b + m02 a)
      (m10 a * m00 b + m11 a * m10 b) (m10 a * m01 b + m11 a * m11 b) (m10 a * m02 b + m11 a * m12 b + m12 a).

(** Used for geo.py:38-57. *)
Definition mid : mat := mkM 1 0 0 0 1 0.

(** np.linalg.inv: LinAlgError when singular.  Used for [relative_pose], geo.py:54-57. *)
Definition minv (a : mat) : result mat :=
  let d := m00 a * m11 a - m01 a * m10 a in
  if Req_EM_T d 0 then Err PyOther
  else Ok (mkM (m11 a / d) (- m01 a / d) ((m01 a * m12 a - m11 a * m02 a) / d)
               (- m10 a / d) (m00 a / d) ((m10 a * m02 a - m00 a * m12 a) / d)).

(** *** PyGeometry (package "geometry"): external *)

(** SE2_from_translation_angle.  Used for [as_SE2], geo.py:68-94. *)
Definition SE2_from_translation_angle (p : vec) (theta : R) : mat :=
  mkM (cos theta) (- sin theta) (fst p) (sin theta) (cos theta) (snd p).
(** translation_from_SE2, angle_from_SE2, translation_angle_from_SE2.
    Used for [norm_between_SE2value], geo.py:32-35; [from_SE2], geo.py:68-94. *)
Definition translation_from_SE2 (q : mat) : vec := (m02 q, m12 q).
Definition angle_from_SE2 (q : mat) : R := atan2 (m10 q) (m00 q).
Definition translation_angle_from_SE2 (q : mat) : vec * R := (translation_from_SE2 q, angle_from_SE2 q).
(** SE2.inverse: transpose of the rotation.
    Used for [SE2_interpolate], geo.py:38-44; [get_distance_SE2], geo.py:60-65. *)
Definition SE2_inverse (q : mat) : mat :=
  mkM (m00 q) (m10 q) (- (m00 q * m02 q + m10 q * m12 q)) (m01 q) (m11 q) (- (m01 q * m02 q + m11 q * m12 q)).

(** The Lie algebra: linear part and angular part.
    Used for [SE2_interpolate], geo.py:38-44. *)
Record se2alg := mkA { lin : vec; ang : R }.
(** The two coefficients of the left Jacobian.
    Used for [SE2_interpolate], geo.py:38-44. *)
Definition jacA (w : R) : R := if Req_EM_T w 0 then 1 else sin w / w.
Definition jacB (w : R) : R := if Req_EM_T w 0 then 0 else (1 - cos w) / w.
(** SE2.group_from_algebra (matrix exponential, in closed form).
    Used for [SE2_interpolate], geo.py:38-44. *)
Definition SE2_exp (v : se2alg) : mat :=
  let w := ang v in
  SE2_from_translation_angle (jacA w * fst (lin v) - jacB w * snd (lin v), jacB w * fst (lin v) + jacA w * snd (lin v)) w.
(** SE2.algebra_from_group (principal matrix logarithm, in closed form).
    Used for [SE2_interpolate], geo.py:38-44; [get_distance_SE2], geo.py:60-65. *)
Definition SE2_log (q : mat) : se2alg :=
  let w := angle_from_SE2 q in
  let d := jacA w * jacA w + jacB w * jacB w in
  mkA ((jacA w * m02 q + jacB w * m12 q) / d, (jacA w * m12 q - jacB w * m02 q) / d) w.
Definition alg_scale (k : R) (v : se2alg) : se2alg := mkA (vscale k (lin v)) (k * ang v).

(** *** geo.py *)

(** norm_between_SE2value with ord=None, geo.py:32-35. *)
Definition norm_between_SE2value (p0 p1 : mat) : R := vnorm (vsub (translation_from_SE2 p0) (translation_from_SE2 p1)).

(** SE2_interpolate, geo.py:38-44. *)
Definition SE2_interpolate (q0 q1 : mat) (alpha : R) : mat :=
  let v := SE2_log (mmul (SE2_inverse q0) q1) in
  mmul q0 (SE2_exp (alg_scale alpha v)).

(** SE2_apply_T2, geo.py:47-51. *)
Definition SE2_apply_T2 (q : mat) (p : vec) : vec :=
  (m00 q * fst p + m01 q * snd p + m02 q * 1, m10 q * fst p + m11 q * snd p + m12 q * 1).

(** relative_pose, geo.py:54-57 (the arguments are arrays). *)
Definition relative_pose (base pose : mat) : result mat :=
  match minv base with Err e => Err e | Ok i => Ok (mmul i pose) end.

(** get_distance_SE2, geo.py:60-65. *)
Definition get_distance_SE2 (q0 q1 : mat) : R := vnorm (lin (SE2_log (mmul (SE2_inverse q0) q1))).

(** SE2Transform, geo.py:68-94, and PoseState, geo.py:25-29. *)
Record SE2Transform := mkSE2T { t_p : vec; t_theta : R }.
Record PoseState := mkPose { ps_x : R; ps_y : R; ps_psi : R }.
Definition t_identity : SE2Transform := mkSE2T (0, 0) 0.
Definition from_SE2 (q : mat) : SE2Transform := let '(t, a) := translation_angle_from_SE2 q in mkSE2T t a.
Definition from_PoseState (x : PoseState) : SE2Transform := mkSE2T (ps_x x, ps_y x) (ps_psi x).
Definition as_SE2 (t : SE2Transform) : mat := SE2_from_translation_angle (t_p t) (t_theta t).

(** shapely.affinity.affine_transform on the vertices of a geometry
    ([a, b, d, e, xoff, yoff]: x' = a x + b y + xoff, y' = d x + e y + yoff).
    Used for [apply_SE2_to_shapely_geo], geo.py:100-103. *)
Definition affine_transform (pts : list vec) (c : R * R * R * R * R * R) : list vec :=
  let '(a, b, d, e, xoff, yoff) := c in
  map (fun p => (a * fst p + b * snd p + xoff, d * fst p + e * snd p + yoff)) pts.

(** apply_SE2_to_shapely_geo, geo.py:100-103, on the vertices. *)
Definition apply_SE2_to_shapely_geo (pts : list vec) (q : mat) : list vec :=
  affine_transform pts (m00 q, m01 q, m10 q, m11 q, m02 q, m12 q).

(** transform_xy, geo.py:106-112: for no points the array has one dimension
    of length 0 and the matrix product raises ValueError. *)
Definition transform_xy (q : mat) (pts : list vec) : result (list vec) :=
  match pts with
  | [] => Err PyValueError
  | _ => Ok (map (fun p => (m00 q * fst p + m01 q * snd p + m02 q * 1, m10 q * fst p + m11 q * snd p + m12 q * 1)) pts)
  end.

(** *** Conversions to CommonRoad polygons, geo.py:115-151.  [V] is the type of
    vertices with np.equal tested on all coordinates; [seg_buffer] is
    LineString(segment).buffer(0.01).exterior.  A CommonRoad polygon is the list
    of vertices it is made from. *)
Section CR.
Context {V : Type} (veqb : V -> V -> bool) (seg_buffer : V -> V -> list V).

(** sPolygon2crPolygon on the vertices of the exterior ring.  geo.py:115-129. *)
Definition sPolygon2crPolygon (vertices : list V) : result (list V) :=
  match vertices with
  | [] => Err PyIndexError
  | v0 :: _ => if veqb v0 (last vertices v0) then Ok (removelast vertices) else Ok vertices
  end.

(** The loop over zip(vertices[:-1], vertices[1:]).
    Used for sLine2crPolygon, geo.py:132-141. *)
Fixpoint segs_loop (segs : list (V * V)) : result (list (list V)) :=
  match segs with
  | [] => Ok []
  | (a, b) :: r => match sPolygon2crPolygon (seg_buffer a b) with
                   | Err e => Err e
                   | Ok p => match segs_loop r with Err e => Err e | Ok ps => Ok (p :: ps) end
                   end
  end.
Definition sLine2crPolygon (vertices : list V) : result (list (list V)) :=
  segs_loop (combine (removelast vertices) (tl vertices)).

(** The kinds of shapely geometry told apart by shapely2crPolygons.  geo.py:144-151. *)
Inductive sgeom := SPolygon (ext : list V) | SLineString (l : list V) | SLinearRing (l : list V) | SOther.
Definition shapely2crPolygons (g : sgeom) : result (list (list V)) :=
  match g with
  | SPolygon ext => match sPolygon2crPolygon ext with Err e => Err e | Ok p => Ok [p] end
  | SLineString l | SLinearRing l => sLine2crPolygon l
  | SOther => Err PyValueError
  end.
End CR.
