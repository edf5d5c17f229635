# Formal model of RustSEUIF97 in Rocq (Coq 8.16.1)

## 1. What is modelled and how

The library is a pure numeric library (IAPWS-IF97 water/steam properties): no
state, no I/O, no threads.  Every function of `/repo/src` becomes one Gallina
function, with the same name, the same operations in the same order, and the
same branches, over an abstract arithmetic

    Class Arith := { num; add; sub; mul; div; opp; abs; sqrt; powi; powf; exp;
                     ln; ltb; leb; eqb; lit; ofZ }.

and is then instantiated:

| instance | carrier | used for |
|---|---|---|
| `FArith L` (FloatInst.v) | Coq's kernel binary64 floats (`PrimFloat`), `L : Libm` = an arbitrary record of `powi powf exp ln` | control flow, guards, NaN, error codes, clamping, termination, bit-exact claims |
| `RArith` (RealInst.v) | Coq's axiomatic reals, comparisons by `Rlt_dec`… | derivative / identity / inverse / stability claims ("in exact arithmetic") |
| any `N : Arith` | – | claims that do not depend on the arithmetic at all |

* `i32` ids and regions are `Z`; the code only compares them and converts them
  to `f64`, so no overflow is possible and wrap-around is not modelled.
* Literals are kept as exact decimals (`dec` = mantissa * 10^exponent), written
  in the model exactly as in the source; `lit` rounds them (correctly, to
  nearest even) for floats and maps them to the exact rational for reals.
* Bounded loops (`for 0..i_max`, `while i < n`) are `loop_pos` with the exact
  bound of the source.  Unbounded loops carry `fuel : positive` and return
  `option` (`None` = not finished); claims about results exclude `None`, and
  termination claims say which fuel is enough.  `hs`, `tv` and `th` of Api.v
  therefore return `option`.
* `match` on ids becomes an if-chain in source order.
* Division by zero and square roots of negative numbers are NaN or infinite in
  `FArith`; in `RArith` they are the total functions of Coq's reals (x/0 is
  unspecified, sqrt of a negative number is 0).  Claims over R are about states
  where this does not matter or say so.
* `tools/rs2v.py` (a translator for the Rust subset used, emitting the line
  citations) generates the loop-free part; functions with loops are written by
  hand in the same files' "hand" blocks and in Algo.v and Api.v.

| model file | source |
|---|---|
| Num, Types | the arithmetic; the sub-region letter |
| Algo | `src/algo/*.rs` |
| Constant | `src/common/constant.rs`, `propertry_id.rs` |
| Boundaries, Region | `src/common/boundaries.rs`, `region.rs` |
| Transport | `src/common/transport_further.rs`, parts of `propertry_pairs.rs` |
| Reg1, Reg1Back | `src/r1/*.rs` |
| Reg2, Reg2Back | `src/r2/*.rs` |
| Reg3Td, Reg3Sub, Reg3V, Reg3 | `src/r3/*.rs` |
| R4Sat, Reg4 | `src/r4/*.rs` |
| Reg5, Reg5Back | `src/r5/*.rs` |
| Api | `src/rust_if97.rs` |
| Bindings | `src/cdecl_c_if97.rs`, `stdcall_c_if97.rs`, `python_if97.rs`, `python/seuif97/__init__.py` |

Not modelled: `Cargo`/build configuration, language wrappers outside `src` and
`python` (C#, VB, Java, Fortran, Excel), the FFI marshalling itself (a C double
is an f64, a C int an i32), documentation examples, LLVM's freedom to
constant-fold libm calls, performance.

## 2. Trusted base

* Coq's kernel and the standard library axioms listed by `Print Assumptions`
  under each property theorem, and no others: the classical reals
  (`ClassicalDedekindReals.sig_forall_dec`, `sig_not_dec`),
  `functional_extensionality_dep`, `Classical_Prop.classic`, and for binary64
  the primitives of `PrimFloat`/`PrimInt63` with `FloatAxioms`/`Uint63` axioms.
* Fidelity of the translation from Rust: the cited lines, and Conform.v, which
  evaluates the binary64 instance on the published verification values (232
  values, 53 functions; tests, not proofs).
* `RefLibm` (FloatInst.v) is a concrete libm used only in Examples and tests.
  Property theorems take any `L : Libm`; where that is not enough the
  hypothesis is visible in the theorem: `powi4_ok L` (powi(x,4) is a number for
  0<=x<=3), `powi4_in L`, `powi4_le L` (bounds on the same fourth power).  Each
  is shown to hold of `RefLibm`.
* Flocq, Coquelicot and Interval are used as libraries; what their tactics
  leave behind are ordinary proof terms with the axioms above.

## 3. Layout of the proofs

* `Spec*.v`: vocabulary in which the properties are stated, written from the
  property texts and the IAPWS releases, not from the code: `Spec` (calls, ids,
  answers), `SpecReal` (published formulas of the saturation line and B23),
  `SpecThermo`, `SpecSums`, `SpecSub3` (subregion tables of SR5-05), `SpecWet`,
  `SpecSolver`, `SpecInverse`, `SpecStable`, `SpecSteam`, `SpecMap`, `SpecGas`.
* `Props*.v`: the property theorems, each closed by `exact`, each with an
  Example that meets its hypotheses and `Print Assumptions` beneath.
* Everything else is lemmas.  How the analytic claims are proved:
  * *identities* (C21–C31): the table sums of the model are differentiated once
    and for all (RSums, Gibbs), then each region function is shown to be the
    formula generated by its fundamental equation (GibbsModel*, ThermoApi*);
  * *saturation line* (C32–C36): quadratic roots, Interval bounds; SatBand1/2
    are generated bands of temperature for the saturated states;
  * *for all states of a region* (C49–C69): verified polynomial enclosures in
    two variables over binary64 (TaylorAlg, Taylor, TaylorSum, TaylorSub;
    correctness proved against the reals with outward rounding from FloatUp).
    Enc1/Enc2 evaluate the equations of a region over a box, Bound1/Bound2
    prove those evaluations correct, Tree* contain covers of the region by
    boxes; `vm_compute` checks every leaf.  The covers are found by search but
    nothing about the search is trusted.  Stab1/Stab2/Stab5, Back2, Map12,
    Back2hs, HsLine, HsBase, MapHs, MapHs1, Gap25, Expand, TvMap, IsoMap and PvMap turn the bounds into statements
    about `pt`, `ph`, `ps`, `hs`, `tv`, `th`, `ts`, `pv`.

## 4. Properties

"Refuted" means: the property as stated in properties.jsonl is false of the
unchanged code; a witness is proved, and what does hold is proved beside it.

| id | file | result |
|---|---|---|
| C01 C02 C03 C04 C05 C12 C13 C14 C15 C16 C17 C47 C48 | PropsDispatch | proved, any arithmetic (C05 binary64) |
| C46 | PropsDispatch | refuted by `pt` alone; every other export is right |
| C06 C08 C09 C11 | PropsRegion | proved, binary64 (C09 also against the published equations over R) |
| C07 C10 C44 | PropsRegion | refuted, and the exact behaviour proved |
| C19 | PropsSums | proved |
| C20 C45 | PropsSums | refuted; exact difference / right outside the strip |
| C21 C22 C23 C24 C25 C27 C30 C31 | PropsThermo | proved over R |
| C26 C28 C29 | PropsThermo | refuted for region 5 cv, OIJTC, region 3 exergy; the rest proved |
| C32 | PropsSat | refuted at the two ends, proved in between |
| C33 C34 | PropsSat | proved over R |
| C18 | PropsWet | refuted for every wet state |
| C35 C36 | PropsWet | proved; refuted for the density above 623.15 K |
| C37 | PropsTerm | proved, all binary64 inputs |
| C38 | PropsTerm | refuted at an ordinary wet state; every call outside the pressure search returns |
| C39 | PropsInverse | refuted for early returns; limits that hold proved |
| C40 C41 | PropsSolver | proved |
| C42 C43 | PropsTransport | C42 refuted for OKV in region 3 and OPR in 1, 2, 5; C43 proved |
| C49–C53 | PropsStable | region 1: stability, monotonicity, round trips ph, ps, hs; proved over R |
| C54–C57 | PropsSteam | region 2: the same for ph, ps; two boundary cases refuted |
| C58 C59 | PropsMap | which h and s of an isobar ph and ps give to which region; region 5 just above 800 C refuted |
| C60 C61 | PropsGas | region 5: stability, monotonicity, the joint with region 2 |
| C62 C64 C65 C66 | PropsIso | which volumes, entropies, enthalpies of an isotherm (tv, ts, th) or isobar (pv) go to which region; refuted at 100 MPa (tv), for cold liquid water (pv, ts) |
| C63 | PropsIso | sign of the thermal expansion, of (dh/dp)_T and the Joule-Thomson coefficient; proved over R |
| C67 | PropsHs | p(h,s) of region 2 to 0.0125 %, region given; proved over R |
| C68 | PropsHs | hs finds region 2 for its states clear of the boundaries (SpecHs) and answers as if it had been named; proved over R |
| C69 | PropsHs | the same for region 1 up to 310 C; refuted at 100 MPa, where every state is rejected |
| C70 C71 | PropsFluid | dielectric constant, viscosity, conductivity: sign and slopes over the whole range (Diel, Visc); proved over R |
| C72 | PropsTh | region map of th for liquid and wet steam (TreeT, ThMap); proved over R, refuted for the liquid from 250 C on and for wet steam of low quality |
| C73 | PropsTrip | wet states given by two properties without naming the region return the values of px and tx (WetTrip); proved over R, refuted for (t,h) up to 235 C |
| C74 | PropsAgree | px and tx return the same values at the same saturated state, for every quality and output id (WetAgree); proved over R, refuted at the two ends of the saturation line |
| C75 | PropsEnergy | energy identities of wet steam, growth of h, s, v with the quality, of the enthalpy of the saturated liquid with the temperature (WetEnergy); proved over R |
| C76 | PropsIso3 | which volumes and entropies tv and ts give to regions 3 and 4 between 350 and 590 C, by the values of pt and tx (Iso3); proved over R |

The witness of C38 is found by running the model: FastHs.v has the functions of
one round of the search with all decimals converted once (a thousand times
faster to evaluate), each proved equal to the model's function; HsLoop.v runs
3096 rounds and four more, which come back to the same state.  It uses
`RefLibm`: another maths library moves the orbit by rounding errors, but not the
jump of the mixture entropy at 16.529 MPa that the search straddles.

## 5. Defects of the code found

Each is the witness of a theorem named `…_refuted`.

| where | what |
|---|---|
| `px`, `tx`, `hx`, `sx` | NaN input is not rejected (C07) |
| `pT_sub_region` | vapour at exactly p = P_MIN up to 350 C has no region (C10); inside the band around saturation pt answers the region number for every id (C11) |
| `tv`, `th`, `ts` | region 2 states from 590 C to 800 C are rejected (C44) |
| C exports | `pt` of the cdecl build is exported as stdcall (C46) |
| `pT2v_3l` | the last table row is not summed (C20) |
| region 3 subregion search | letters c and k are overwritten (C45): volumes of 14000 m3/kg and negative ones |
| region 5 `cv` | wrong term (C26) |
| region 3 exergy | misplaced parenthesis (C29) |
| OIJTC | factor 0.001 (C28) |
| region 4 density | interpolated linearly between the saturated densities (C18); above 623.15 K the error code -1000 |
| OKV region 3, OPR regions 1, 2, 5 | multiplied by density; 1/T in place of the density (C42) |
| `p_sat`, `T_sat` | round trip through px/tx is rejected at the critical temperature and at the lowest pressure (C32, C74) |
| `hs` in region 4 | the pressure search cycles for ever, e.g. hs(1700, 3.825043) (C38) |
| `tv`, `th`, `ts` in regions 1, 5; `pv` in region 1 | answers outside the region, NaN (C39) |
| `ph` | states on the B23 line given to region 3 (C56); below P_MIN rejected (C56, C57); region 5 states just above 800 C given to region 2 (C58) |
| `tv` | liquid states at exactly 100 MPa are rejected (C62) |
| `pv` | liquid water below about 8 C is rejected, because the volume at 0 C is taken as the lower limit; just above the triple point liquid is called vapour (C64) |
| `ts` | liquid water below 4 C is called wet steam (C65) |
| `hs` | every liquid state at 100 MPa is rejected (C69) |
| `th` | from 250 C on no enthalpy is given to region 1, so liquid states there are rejected (C72); up to 235 C wet steam of low quality is called liquid and comes back with quality 0 (C72, C73) |

## 6. Mutation testing

Wrong variants of model definitions are built in a scratch copy; LOG.jsonl in
`seeded/` records each edit, the claim it breaks and the theorems that failed.
Survivors led to new theorems or tests (C58/C59 for the region maps, Conform.v
for tables no property reads).
Later rounds replay the proofs of one file against a mutated copy of the function
(`ts_sub_region`, `tv_sub_region`, `th_sub_region`, the wet-steam functions)
instead of rebuilding everything.  An entry with no failed theorem is a survivor;
its claim says whether the change is equivalent or which states no theorem covers.
