(** Indexing the components of vectors, colours, quaternions and matrices, and the products of
    colours (include/zenkit/Misc.hh:19-324). *)

From Verif Require Import MBase MStream MArchive MMrm.
Local Open Scope N_scope.

(** An object is the list of its fields in the order of their declaration, all of one size.  A read
    or a store through a pointer to field [from], [index] fields on, is undefined outside the
    object.  (C++ leaves more of these accesses undefined; what compilers make of them is this.) *)
Definition cell_at (fields : list N) (from index : N) : outcome N :=
  match nth_N fields (from + index) with Some v => Ret v | None => Undef end.
Fixpoint put_cell (fields : list N) (k : nat) (v : N) : list N :=
  match fields, k with
  | [], _ => []
  | _ :: l, O => v :: l
  | a :: l, S k' => a :: put_cell l k' v
  end.
Definition cell_put (fields : list N) (from index v : N) : outcome (list N) :=
  if from + index <? len fields then Ret (put_cell fields (N.to_nat (from + index)) v) else Undef.

(** The fields in memory, and the field [pointer()] points to: Misc.hh:20, 46-52 *)
Definition vec2_fields (v : vec2) : list N := [v2x v; v2y v].
Definition vec2_pointer : N := 0.
(** Misc.hh:56, 82-88 *)
Definition vec3_fields (v : vec3) : list N := [v3x v; v3y v; v3z v].
Definition vec3_pointer : N := 0.
(** Misc.hh:92, 118-124 *)
Record vec4 := mkV4 { v4x : N; v4y : N; v4z : N; v4w : N }.
Definition vec4_fields (v : vec4) : list N := [v4x v; v4y v; v4z v; v4w v].
Definition vec4_pointer : N := 0.
(** Misc.hh:128, 153-159 *)
Definition color_fields (c : color) : list N := [c_r c; c_g c; c_b c; c_a c].
Definition color_pointer : N := 0.
(** Misc.hh:163, 180-186: [w] is the first field, and the pointer is to [x]. *)
Definition quat_fields (q : quat) : list N := [q_w q; q_x q; q_y q; q_z q].
Definition quat_pointer : N := 1.

(** [operator[]]: Misc.hh:26-32, 62-68, 98-104, 133-139, 168-174 *)
Definition vec2_at (v : vec2) (i : N) : outcome N := cell_at (vec2_fields v) vec2_pointer i.
Definition vec3_at (v : vec3) (i : N) : outcome N := cell_at (vec3_fields v) vec3_pointer i.
Definition vec4_at (v : vec4) (i : N) : outcome N := cell_at (vec4_fields v) vec4_pointer i.
Definition color_at (c : color) (i : N) : outcome N := cell_at (color_fields c) color_pointer i.
Definition quat_at (q : quat) (i : N) : outcome N := cell_at (quat_fields q) quat_pointer i.

(** Assigning to [operator[]] *)
Definition vec2_put (v : vec2) (i x : N) : outcome vec2 :=
  obind (cell_put (vec2_fields v) vec2_pointer i x) (fun l => match l with [a; b] => Ret (mkV2 a b) | _ => Undef end).
Definition vec3_put (v : vec3) (i x : N) : outcome vec3 :=
  obind (cell_put (vec3_fields v) vec3_pointer i x) (fun l => match l with [a; b; c] => Ret (mkV3 a b c) | _ => Undef end).
Definition vec4_put (v : vec4) (i x : N) : outcome vec4 :=
  obind (cell_put (vec4_fields v) vec4_pointer i x) (fun l => match l with [a; b; c; d] => Ret (mkV4 a b c d) | _ => Undef end).
Definition color_put (v : color) (i x : N) : outcome color :=
  obind (cell_put (color_fields v) color_pointer i x) (fun l => match l with [a; b; c; d] => Ret (mkColor a b c d) | _ => Undef end).
Definition quat_put (q : quat) (i x : N) : outcome quat :=
  obind (cell_put (quat_fields q) quat_pointer i x) (fun l => match l with [w; a; b; c] => Ret (mkQuat a b c w) | _ => Undef end).

(** Misc.hh:205-211 and then 66-68; 268-274 and then 102-104: column and row *)
Definition column (n : N) (m : mat) (c : N) : outcome (list N) :=
  if c <? n then Ret (take n (drop (n * c) m)) else Undef.
Definition mat3_at (m : mat) (c r : N) : outcome N := obind (column 3 m c) (fun l => cell_at l vec3_pointer r).
Definition mat4_at (m : mat) (c r : N) : outcome N := obind (column 4 m c) (fun l => cell_at l vec4_pointer r).

(** Misc.hh:141-147: each product is an [int] converted to [unsigned char]. *)
Definition color_scale (c : color) (k : N) : color :=
  mkColor (u8 (c_r c * k)) (u8 (c_g c * k)) (u8 (c_b c * k)) (u8 (c_a c * k)).
Definition color_mul (a b : color) : color :=
  mkColor (u8 (c_r a * c_r b)) (u8 (c_g a * c_g b)) (u8 (c_b a * c_b b)) (u8 (c_a a * c_a b)).
