(** Model of shipgrav/grav.py, lines 340-450: [calc_cross_coupling_coefficients].
    The six series are finite and of equal length; over R. *)
From Coq Require Import List Reals Arith.
From Verif Require Import M_Py M_Np M_Nav.
Import ListNotations.
Open Scope R_scope.

(** [np.diff] *)
Definition np_diff (x : list R) : list R := map2 (fun b a => b - a) (tl x) x.

(** grav.py 371-374: [np.where(tdiff > 5*samplerate)[0]] *)
Definition gap_inds (times : list R) (samplerate : R) : list nat :=
  filter (fun i => if Rlt_dec (5 * samplerate) (nth i (np_diff times) 0) then true else false)
         (seq 0 (length (np_diff times))).

(** grav.py 367-374 *)
Definition end_inds (n : nat) (times : option (list R)) (samplerate : R) : list nat :=
  match times with
  | None => [n]
  | Some ts => match gap_inds ts samplerate with [] => [n] | g => g end
  end.

(** grav.py 376, 385-392: bounds [end_inds[i-1]+1 : end_inds[i]] of the segments, the first
    end_inds[-1]+1 being 0; segments shorter than 1000 are skipped (lines 392-393). *)
Definition seg_bounds (ends : list nat) : list (nat * nat) := combine (0%nat :: map S ends) ends.
Definition used_bounds (n : nat) (ends : list nat) : list (nat * nat) :=
  filter (fun ab => negb (Nat.min (snd ab) n - fst ab <? 1000)%nat) (seg_bounds ends).

(** scipy.signal.firwin(taps, 1/taps, window='blackman') (library, scipy/signal/_fir_filter_design.py):
    windowed sinc, symmetric Blackman window, scaled to unit gain at zero frequency. *)
Definition np_sinc (x : R) : R := if Req_EM_T x 0 then 1 else sin (PI * x) / (PI * x).
Definition blackman (n k : nat) : R :=
  let th := 2 * PI * INR k / INR (n - 1) in 0.42 - 0.5 * cos th + 0.08 * cos (2 * th).
Definition firwin_raw (n : nat) (fc : R) (k : nat) : R :=
  let m := INR k - 0.5 * INR (n - 1) in fc * np_sinc (fc * m) * blackman n k.
Definition firwin (n : nat) (fc : R) : list R :=
  let h := map (firwin_raw n fc) (seq 0 n) in map (fun x => x / pysum h) h.

(** scipy.signal.lfilter(b, 1, x): y[k] = sum of b[j]*x[k-j], zero before the start. *)
Definition lfilter_fir (b x : list R) : list R :=
  map (fun k => pysum (map (fun j => nth j b 0 * (if (j <=? k)%nat then nth (k - j) x 0 else 0)) (seq 0 (length b))))
      (seq 0 (length x)).

(** grav.py 411-413 *)
Definition cc_taps : nat := 200.
Definition cc_BM : list R := firwin cc_taps (1 / INR cc_taps).

(** grav.py 395-428 for one series of one segment *)
Definition cc_ddiff (x : list R) : list R := convolve_same (convolve_same x tay10) tay10.
Definition cc_process (x : list R) : list R :=
  let gpp := cc_ddiff x in
  let gpp := slice gpp 10 (length gpp - 10) in
  let f := lfilter_fir cc_BM gpp in
  slice f cc_taps (length f - cc_taps).

(** grav.py 385-435 for one series: processed segments appended *)
Definition cc_series (bounds : list (nat * nat)) (x : list R) : list R :=
  concat (map (fun ab => cc_process (slice x (fst ab) (snd ab))) bounds).

(** The returned DataFrame (grav.py 445-446). *)
Record cc_df : Type := mk_df { d_ve : list R; d_vcc : list R; d_al : list R; d_ax : list R; d_lev : list R; d_g : list R }.

(** grav.py 367-446; with no long segment the table is empty and OLS raises (numpy maximum of an
    empty array). *)
Definition cc_table (faa vcc ve al ax lev : list R) (times : option (list R)) (samplerate : R) : res cc_df :=
  let ub := used_bounds (length faa) (end_inds (length faa) times samplerate) in
  let df := mk_df (cc_series ub ve) (cc_series ub vcc) (cc_series ub al) (cc_series ub ax) (cc_series ub lev)
                  (map (fun g => - g) (cc_series ub faa)) in
  match ub with [] => Raise ValueError | _ => Ok df end.

(** grav.py 447-449: rows of x = df[['ve','vcc','al','ax','lev']] *)
Definition cc_rows (df : cc_df) : list (list R) :=
  map (fun i => [nth i (d_ve df) 0; nth i (d_vcc df) 0; nth i (d_al df) 0; nth i (d_ax df) 0; nth i (d_lev df) 0])
      (seq 0 (length (d_g df))).

(** statsmodels [add_constant]: a leading column of ones, unless some column is already a non-zero
    constant. *)
Definition const_col (rows : list (list R)) (c : nat) : Prop :=
  exists v, v <> 0 /\ forall r, In r rows -> nth c r 0 = v.
Definition is_add_constant (rows X : list (list R)) : Prop :=
  ((exists c, (c < 5)%nat /\ const_col rows c) /\ X = rows) \/
  (~ (exists c, (c < 5)%nat /\ const_col rows c) /\ X = map (cons 1) rows).

(** statsmodels [OLS(y, X).fit().params]: a minimiser of the residual sum of squares. *)
Definition row_dot (r b : list R) : R := pysum (map2 Rmult r b).
Definition rss (X : list (list R)) (y b : list R) : R :=
  pysum (map2 (fun r v => (v - row_dot r b) ^ 2) X y).
Definition is_ols (X : list (list R)) (y b : list R) : Prop :=
  (forall r, In r X -> length b = length r) /\
  forall b', length b' = length b -> rss X y b <= rss X y b'.

(** The fitted parameters of the call. *)
Definition cc_params (df : cc_df) (b : list R) : Prop :=
  exists X, is_add_constant (cc_rows df) X /\ is_ols X (d_g df) b.
