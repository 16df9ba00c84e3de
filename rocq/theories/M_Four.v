(** Model of shipgrav/grav.py, lines 618-886: [grav1d_padded], [grav2d_folding],
    [grav2d_layer_variable_density], [_kvalue].  Over R, exact Fourier transforms. *)
From Coq Require Import List Reals Arith.
From Verif Require Import M_Py M_Fft.
Import ListNotations.
Open Scope R_scope.

(** [np.mean] *)
Definition np_mean (x : list R) : R := pysum x / INR (length x).

(** ** [grav1d_padded], grav.py 618-685 *)

(** grav.py 656: edge padding by two profile lengths on each side *)
Definition padtopo (topo : list R) : list R :=
  let wing := repeat 1 (2 * length topo) in
  map (fun w => hd 0 topo * w) wing ++ topo ++ map (fun w => last topo 0 * w) wing.

(** grav.py 659-667: [np.arange(1, mfx+1)] with mfx = nxt/2. + 1 a float has ceil(nxt/2 + 1) entries *)
Definition xi1d (nxt : nat) : list nat :=
  let xi1 := seq 1 ((nxt + 1) / 2 + 1) in xi1 ++ rev (slice xi1 1 (length xi1 - 1)).
Definition kwn1d (nxt : nat) (dx : R) : list R :=
  let k := (2 * PI) / (INR nxt * dx) in
  let k2 := k ^ 2 in
  firstn nxt (map (fun xi => sqrt ((INR xi - 1) * (INR xi - 1) * k2)) (xi1d nxt)).

(** grav.py 669-680: terms of the series *)
Definition sumtopo (pad kwn : list R) : list Cx :=
  fold_left (fun acc ip => map2 cadd acc
      (map2 (fun F k => cscal (k ^ (ip - 1) / INR (fact ip)) F) (fft (map (fun t => cre (t ^ ip)) pad)) kwn))
    (seq 2 4) (upd (fft (map cre pad)) 0 C0).

(** grav.py 643-685; an empty profile raises on [xtopo[-1]] *)
Definition grav1d_padded (xtopo topo : list R) (zlev rho : R) : res (list R) :=
  match xtopo, topo with
  | [], _ | _, [] => Raise IndexError
  | x0 :: _, _ =>
      let G := 6.673 * 1e-8 in
      let grav := 2 * PI * G * rho in
      let baselev := np_mean topo in
      let dx := (last xtopo 0 - x0) / (INR (length xtopo) - 1) in
      let nx := length xtopo in
      let pad := padtopo topo in
      let kwn := kwn1d (length pad) dx in
      let data := map2 (fun S k => cscal (grav * exp (- (zlev - baselev) * k)) S) (sumtopo pad kwn) kwn in
      Ok (map (fun c => fst c * 100) (slice (ifft data) (2 * nx) (3 * nx)))
  end.

(** ** [grav2d_folding], grav.py 688-813 *)

(** grav.py 764-771: squared wavenumbers along one axis of [n] points *)
Definition axis_k2 (n : nat) (d : R) : list R :=
  let kint := (2 * PI) / (INR n * d) in
  let mf := (n / 2 + 1)%nat in
  let xi1 := seq 1 mf in
  map (fun xi => (INR xi - 1) * (INR xi - 1) * (kint * kint)) (xi1 ++ rev (slice xi1 1 (mf - 1))).

(** grav.py 773-777: the array of wavenumbers, transposed to rows of y.  A row of the wrong length
    does not broadcast (ValueError); a missing y entry is an IndexError. *)
Definition kwn2d (nxt nyt : nat) (dx dy : R) : res (list (list R)) :=
  let xxk := axis_k2 nxt dx in
  let yyk := axis_k2 nyt dy in
  if negb (length xxk =? nxt)%nat then Raise ValueError else
  mapM (fun j => do y <- getr yyk j; Ok (map (fun x => sqrt (x + y)) xxk)) (seq 0 nyt).

(** grav.py 780-782: [np.vstack], [np.hstack] with the mirror images *)
Definition fold_grid (Z : list (list R)) : list (list R) :=
  map (fun r => r ++ rev r) (Z ++ rev Z).

Definition zip2 {A B C : Type} (f : A -> B -> C) (g : list (list A)) (h : list (list B)) : list (list C) :=
  map2 (map2 f) g h.

(** grav.py 785-803: sum over powers; the zeroing of entries with wavenumber 0 is line 799-800 *)
Fixpoint csum_powers (ny nx : nat) (Z : list (list R)) (kwn : list (list R)) (i steps : nat) (fct : R) (acc : list (list Cx)) : list (list Cx) :=
  match steps with
  | O => acc
  | S s =>
      let fct := fct * INR i in
      let data := fft2 ny nx (map (map (fun z => cre (z ^ i))) Z) in
      let data := zip2 (fun F k => if Req_EM_T k 0 then C0 else cscal (k ^ (i - 1) / fct) F) data kwn in
      csum_powers ny nx Z kwn (S i) s fct (zip2 cadd acc data)
  end.

(** grav.py 717-813.  [Z] has [len(Y)] rows of [len(X)] values, otherwise the arrays do not
    broadcast (simplified to ValueError). *)
Definition grav2d_folding (X Y : list R) (Z : list (list R)) (dx dy drho dz : R) (ifold : bool) (npower : nat) : res (list (list R)) :=
  let nx := length X in
  let ny := length Y in
  match concat Z with
  | [] => Raise ValueError
  | _ :: _ =>
      let slev := np_mean (concat Z) in
      let Zs := map (map (fun z => 100 * (slev - z))) Z in
      let slev := slev * 100 in
      let dx := 100000 * dx in
      let dy := 100000 * dy in
      let dz := dz * 100 in
      let nxt := if ifold then (nx * 2)%nat else nx in
      let nyt := if ifold then (ny * 2)%nat else ny in
      let G := 6.673e-8 in
      let conv := 1000 in
      let grav1 := 2 * PI * G * conv in
      let grav := grav1 * drho in
      do kwn <- kwn2d nxt nyt dx dy;
      if negb (length Z =? ny)%nat then Raise ValueError else
      if negb (forallb (fun r => (length r =? nx)%nat) Z) then Raise ValueError else
      let Zf := if ifold then fold_grid Zs else Zs in
      let data := fft2 nyt nxt (map (map cre) Zf) in
      let data := upd data 0 (upd (nth 0 data []) 0 C0) in
      let cs := csum_powers nyt nxt Zf kwn 2 (npower - 1) 1 data in
      let zlev := slev + dz in
      let data := zip2 (fun S k => cscal (grav * exp (- zlev * k)) S) cs kwn in
      Ok (map (fun r => map fst (firstn nx r)) (firstn ny (ifft2 nyt nxt data)))
  end.

(** ** [grav2d_layer_variable_density], grav.py 816-886 *)

(** grav.py 860-886: [_kvalue]; j <= nx/2+1 compared as reals is 2j <= nx+2 *)
Definition kvalue1 (j n : nat) (dk : R) : R :=
  if (2 * j <=? n + 2)%nat then INR j * dk else (INR j - INR n) * dk.
Definition kvalue (i j nx ny : nat) (dkx dky : R) : R * R := (kvalue1 j nx dkx, kvalue1 i ny dky).

(** grav.py 832-857, for an array of [ny] rows and [nx] columns *)
Definition layer (ny nx : nat) (rho : list (list R)) (dx dy z1 z2 : R) : list (list R) :=
  let si2mg := 1e5 in
  let km2m := 1e3 in
  let G := 6.673e-11 in
  let grav := 2 * PI * G in
  let dkx := 2 * PI / (INR nx * dx) in
  let dky := 2 * PI / (INR ny * dy) in
  let ifrho := fft2 ny nx (map (map cre) rho) in
  let crho := map (fun i => map (fun j =>
      let '(kx, ky) := kvalue i j nx ny dkx dky in
      let k := sqrt (kx ^ 2 + ky ^ 2) in
      if Req_EM_T k 0 then C0
      else cscal (grav * (exp (- k * z1) - exp (- k * z2)) / k) (get2 C0 ifrho i j)) (seq 0 nx)) (seq 0 ny) in
  map (map (fun c => fst c * si2mg * km2m)) (ifft2 ny nx crho).
