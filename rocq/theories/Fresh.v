(** The first Euler step of a freshly built aircraft.

    A new aircraft's state is a float32 array (dubins.py 330-331, 573-577). Until the first step has replaced
    it by a float64 array, the derivative is computed on float32 scalars: numpy's sine, cosine and tangent are
    then its float32 versions, and a product of two float32 scalars is rounded to float32. A float64 product of
    two float32 numbers is exact, so rounding it once to float32 is the float32 product. Products with a Python
    number (-1, self.g) are float64 (numpy 1.26, poetry.lock). With scipy's solvers nothing of this happens, since
    scipy converts the state to float64 first. *)
From Coq Require Import String ZArith List.
From Verif Require Import PyBase Num Arr BaseModel Dubins Float64.
Import List ListNotations.

(** numpy's float32 functions. Float32 numbers are the binary64 numbers that the float32 cast leaves alone. *)
Record libm32 : Type := { sin32 : f64 -> f64; cos32 : f64 -> f64; tan32 : f64 -> f64 }.

Section Fresh.
  Variable lm : libm.
  Variable m : libm32.
  Local Hint Extern 0 (Num f64) => exact (F64 lm) : typeclass_instances.

  (** Dubins2dDynamics.state_transition_system (403-411) on a float32 state. *)
  Definition dubins2d_f32 (s : arr f64) : res (arr f64) :=
    match s with
    | A0 _ => Err TypeError
    | A1 [_; _; heading; v] => Ok (A1 [nf32 (nmul v (cos32 m heading)); nf32 (nmul v (sin32 m heading)); n0; n0])
    | A1 _ => Err ValueError
    end.
  (** Dubins3dDynamics.state_transition_system (664-674) on a float32 state. *)
  Definition dubins3d_f32 (g : f64) (s : arr f64) : res (arr f64) :=
    match s with
    | A0 _ => Err TypeError
    | A1 [_; _; _; heading; gamma; roll; v] =>
        Ok (A1 [nf32 (nmul (nf32 (nmul v (cos32 m heading))) (cos32 m gamma));
                nf32 (nmul (nf32 (nmul v (sin32 m heading))) (cos32 m gamma));
                nmul (nmul (nZ (-1)) v) (sin32 m gamma);
                nmul (ndiv g v) (tan32 m roll);
                n0; n0; n0])
    | A1 _ => Err ValueError
    end.

  (** The same entity with another derivative. *)
  Definition with_raw (e : entity f64) (raw : f64 -> arr f64 -> arr f64 -> res (arr f64)) : entity f64 :=
    let d := e_dyn e in
    {| e_dyn := {| d_min := d_min d; d_max := d_max d; d_wrap := d_wrap d; d_use_jax := d_use_jax d; d_samples := d_samples d;
                   d_sdmin := d_sdmin d; d_sdmax := d_sdmax d; d_method := d_method d; d_raw := raw |};
       e_default := e_default e; e_cmin := e_cmin e; e_cmax := e_cmax e; e_cmap := e_cmap e;
       e_state := e_state e; e_sdot := e_sdot e; e_traj := e_traj e |}.

  (** Steps of an entity whose state is a float32 array: the first one with the float32 derivative [raw32], the
      others, whose state is a float64 array, as usual. *)
  Definition run_fresh (w : world f64) (e : entity f64) (raw32 : f64 -> arr f64 -> arr f64 -> res (arr f64))
             (acts : list (f64 * action f64)) : res (entity f64) :=
    match acts with
    | [] => Ok e
    | (h, a) :: rest =>
        let o := entity_step w (with_raw e raw32) h a in
        _ <- o_res o ;; run w (with_raw (o_entity o) (d_raw (e_dyn e))) rest
    end.

  (** A new Dubins2dAircraft and its flight. *)
  Definition fly_new2d (w : world f64) samples v_min v_max hr_min hr_max acc_min acc_max x y heading v
             (acts : list (f64 * action f64)) : res (entity f64) :=
    run_fresh w (dubins2d_aircraft samples "Euler" v_min v_max hr_min hr_max acc_min acc_max x y heading v)
      (affine_raw dubins2d_f32 dubins2d_g) acts.
  (** A new Dubins3dAircraft and its flight. *)
  Definition fly_new3d (w : world f64) samples v_min v_max g_min g_max r_min r_max gr_min gr_max rr_min rr_max acc_min acc_max
             x y z heading gamma roll v (acts : list (f64 * action f64)) : res (entity f64) :=
    run_fresh w (dubins3d_aircraft samples "Euler" v_min v_max g_min g_max r_min r_max gr_min gr_max rr_min rr_max acc_min acc_max
                   x y z heading gamma roll v)
      (affine_raw (dubins3d_f32 G_FT) dubins3d_g) acts.
End Fresh.
