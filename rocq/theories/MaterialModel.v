(** Model of material/material.py and material/seismic_velocity.py. *)
From Verif Require Import Base.

(** material.py:133-137, the five attributes of a Material. *)
Record material : Type := mkMat {
  bulk : R;    (* bulk_modulus *)
  shear : R;   (* shear_modulus *)
  dens : R;    (* density *)
  vp : R;      (* primary_velocity *)
  vs : R       (* secondary_velocity *)
}.

(** seismic_velocity.py:28-39 *)
Definition calculate_shear_modulus (vs d : R) : R := vs ^ 2 * d.

(** seismic_velocity.py:42-52 *)
Definition calculate_bulk_modulus (vp mu d : R) : R := vp ^ 2 * d - 4 / 3 * mu.

(** seismic_velocity.py:55-65; division by zero density and negative radicand
    leave the reals. *)
Definition calculate_primary_velocity (k mu d : R) : res R :=
  let* q := np_div (k + 4 / 3 * mu) d in np_sqrt q.

(** seismic_velocity.py:68-78 *)
Definition calculate_secondary_velocity (mu d : R) : res R :=
  let* q := np_div mu d in np_sqrt q.

(** material.py:156-167, the part of [set_defaults] that fills in the moduli
    (shear modulus first). *)
Definition fill_moduli (obulk oshear odens ovs ovp : option R) : res (R * R) :=
  let* mu :=
    match oshear with
    | Some mu => Ok mu
    | None =>
        match ovs, odens with
        | Some v, Some d => Ok (calculate_shear_modulus v d)
        | _, _ => Err ValueError
        end
    end in
  let* k :=
    match obulk with
    | Some k => Ok k
    | None =>
        match ovp, odens with
        | Some v, Some d => Ok (calculate_bulk_modulus v mu d)
        | _, _ => Err ValueError
        end
    end in
  Ok (k, mu).

(** material.py:168-179, the part of [set_defaults] that fills in velocities. *)
Definition fill_velocities (k mu d : R) (ovs ovp : option R) : res (R * R) :=
  let* p :=
    match ovp with
    | Some v => Ok v
    | None => calculate_primary_velocity k mu d
    end in
  let* s :=
    match ovs with
    | Some v => Ok v
    | None => calculate_secondary_velocity mu d
    end in
  Ok (p, s).

(** material.py:114-179, [Material(bulk_modulus, shear_modulus, density,
    secondary_velocity, primary_velocity)].

    Simplification: in the code velocities are derived before the three guards
    on density and moduli (lines 140-145).  If a radicand is negative the derived
    velocity is nan or complex, but then density or a modulus is negative and
    the guards raise ValueError before the velocity is looked at.  The model
    runs these guards first.  A zero density is met (by the division) before any
    guard.  Density absent with everything else present: [None < 0] is a
    TypeError (line 140). *)
Definition mk_material (obulk oshear odens ovs ovp : option R) : res material :=
  let* km := fill_moduli obulk oshear odens ovs ovp in
  let (k, mu) := (km : R * R) in
  match odens with
  | None =>
      match ovp, ovs with
      | Some _, Some _ => Err TypeError
      | _, _ => Err ValueError
      end
  | Some d =>
      let derives_velocity :=
        match ovp, ovs with Some _, Some _ => false | _, _ => true end in
      if (if derives_velocity then (if Req_EM_T d 0 then true else false) else false)
      then Err NonFinite
      else if Rlt_dec d 0 then Err ValueError
      else if Rlt_dec k 0 then Err ValueError
      else if Rlt_dec mu 0 then Err ValueError
      else
        let* vv := fill_velocities k mu d ovs ovp in
        let (p, s) := (vv : R * R) in
        if Rlt_dec p 0 then Err ValueError
        else if Rlt_dec s 0 then Err ValueError
        else if Rlt_dec p (sqrt (4 / 3) * s) then Err ValueError
        else Ok (mkMat k mu d p s)
  end.

(** Material(density=d, bulk_modulus=k, shear_modulus=mu) *)
Definition mat_of_moduli (k mu d : R) : res material :=
  mk_material (Some k) (Some mu) (Some d) None None.

(** Material(density=d, primary_velocity=p, secondary_velocity=s) *)
Definition mat_of_velocities (d p s : R) : res material :=
  mk_material None None (Some d) (Some s) (Some p).

(** material.py:181-192 *)
Definition poisson_ratio (m : material) : res R :=
  np_div (3 * bulk m - 2 * shear m) (2 * (3 * bulk m + shear m)).

(** material.py:194-203 *)
Definition primary_wave_modulus (m : material) : R := bulk m + 4 / 3 * shear m.

(** material.py:205-207 *)
Definition acoustic_impedance (m : material) : R := vp m * dens m.

(** material.py:209-211 *)
Definition shear_impedance (m : material) : R := vs m * dens m.

(** config/material_type.py:18-30, [ArbitraryMaterial]: a dataclass whose
    __init__ is generated, so only [set_defaults] runs (line 26-27), none of the
    guards of [Material.__init__].  Density is a required field. *)
Definition arbitrary_material (obulk oshear : option R) (d : R) (ovs ovp : option R)
  : res material :=
  let* km := fill_moduli obulk oshear (Some d) ovs ovp in
  let (k, mu) := (km : R * R) in
  let* vv := fill_velocities k mu d ovs ovp in
  let (p, s) := (vv : R * R) in
  Ok (mkMat k mu d p s).
