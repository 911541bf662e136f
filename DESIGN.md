# Formal model of pyflowgo in Rocq (Coq 8.16.1)

## 1. Shape of the model

The code is modelled function by function in `rocq/theories/`, one Gallina definition per Python
function or method (long methods are split into consecutive blocks), each with the file and lines it
models.  Python exceptions are values (`res`, `exn` in `Base.v`); methods that mutate run in a
state monad `M` over a `world` (state object, process-wide logger table, channel depth, effusion rate,
mass flux, iteration counter, finished flag) which **keeps the world reached when an exception is raised**.

### 1.1 Model files

| file | models |
|---|---|
| `Base.v`, `Num.v`, `Json.v` | exceptions, strings, dicts, the arithmetic interface, `json.load` values, `float()` |
| `Logger.v` | flowgo_logger.py, and the CSV text it writes |
| `World.v` | flowgo_state.py, the mutable attributes, the effect monad |
| `Vesicle.v` `MeltVisc.v` `RelVisc.v` `Bubbles.v` | vesicle (5), melt (3), crystal (12) and bubble (4) models |
| `Terrain.v` | flowgo_terrain_condition.py, scipy linear splines |
| `Lava.v` | yield strength models (5), flowgo_material_lava.py |
| `Thermal.v` | crystallization (4), crust temperature (5), crust cover (2), flowgo_material_air.py |
| `Flux.v` | the six flux files and four radiation variants, flowgo_heat_budget.py |
| `Integrator.v` | flowgo_integrator.py and the run loop |
| `Factory.v` | flowgo_model_factory.py |
| `Run.v` | run_flowgo.py and main_flowgo.py |
| `EffArray.v` | run_flowgo_effusion_rate_array.py, run_outs.py |
| `Plot.v` | plot_flowgo_results.py (the series handed to matplotlib), the whole sweep |
| `CsvText.v` | the text of the CSV files: writer and reader of Python's csv module (default dialect) as flowgo_logger.py, run_outs.py and plot_flowgo_results.py use them |
| `Gui.v` | the buttons of main_run_and_plot_flowgo_GUI.py |
| `SoftLibm.v` | no code: a fixed-point exp, log10, sin, erf and pow, so that the binary64 model can be run (section 7) |
| `JsonText.v`, `EditJson.v`, `JsonDump.v` | `json.loads` of a text, `str` of a value, edit_json.py, the text of `json.dump(v, f, indent=4)` |

### 1.2 Arithmetic

Every definition is generic over `Num T` (`Num.v`), a class of operations *without laws*.
* Theorems about control flow, bookkeeping, logging and configuration are proved for **every** `Num T`:
  they hold for IEEE binary64 with NaN, infinities and rounding.
* Theorems about magnitudes (conservation, monotonicity, signs, termination bounds) are proved for the
  instance `RNum` (`RNum.v`): exact reals, where `x/0` raises ZeroDivisionError, and `math.pow`, `**`,
  `math.log10`, `math.sqrt` raise as in Python outside their domain; there is no rounding and no overflow.
* Rounding-sensitive theorems (parts of C56, C58, C69, and C78) are proved for the Flocq binary64 instance `FNum`
  (`FNum.v`), whose libm functions are an arbitrary record of functions; values carry a flag "numpy scalar /
  Python float" because numpy division never raises.

### 1.3 Proof files

| file | content |
|---|---|
| `Spec.v` | plain mathematics used in the statements (formulas over `R`, lists, maps), independent of the model |
| `RPow.v`, `Erf.v`, `FFacts.v`, `FloatErr.v` | real powers, the error function, facts about binary64 and its rounding errors |
| `Refine.v`, `Lipschitz.v`, `ModelLip.v` | error of sums with two step sizes; Lipschitz functions of position, temperature and crystal fraction; the physical models are such functions |
| `Resume.v` | what a step depends on: used to resume a run from a row |
| `LoggerProofs.v` | the logger refines a finite map of last writes |
| `Frame.v` `StepLog.v` `StepProofs.v` `RowProofs.v` `StepProps.v` `ColumnProofs.v` `StepRow.v` | inversion of one step, what it may change, the rows and columns it writes (any arithmetic) |
| `Gives.v`, `Steady.v` | evaluation of the flux code, re-evaluation in the same state |
| `Safe.v`, `Valid.v` | no computation of a step raises in a well-behaved state; physical ranges of a configuration |
| `Cooling.v` | when every heat flux is a loss |
| `JsonFacts.v`, `JsonRead.v` | which texts `loads` reads, reading back the text of a value |
| `LogIndep.v`, `Timeless.v`, `WidthScale.v` | relational proofs over pairs of runs: other log, other clock, other width |
| `CsvProofs.v` | reading back what csv.writer wrote, whole or cut short |
| `Crash.v` | runs, sweeps and editor sessions as processes of file operations sharing a disk, killed at any point |
| `Causal.v` | what a step depends on: the channel only where the flow is |
| `Recompute.v` | what a successful evaluation of the heat budget returned and logged, read backwards |
| `Faster.v` | a faster, deeper flow loses less heat per unit of lava carried |
| `JsonGrammar.v` | specification: the JSON grammar (RFC 8259 and CPython's three constants), independent of the scanner |
| `TableTrace.v` | which step wrote each row of a table |
| `Props_*.v` | the theorems `Cnn_*` of the properties, with the definitions their statements use |
| `Props_Template*.v`, `Props_*Demo.v`, `Example`s | concrete cases (mostly the shipped `resource/template.json`) that meet the hypotheses |

## 2. Trusted base

* Coq's kernel (checked again by `coqchk`), and the axioms of section 5.
* The reading of the Python source: no extraction, no execution of the code; tested as described in section 7.
* Library behaviour taken as given: `json.load` and `json.dump` on files (files of the model hold JSON values; the texts are modelled in `JsonText.v` and
  `JsonDump.v`, and C92 and C93 show that they name the same values, if `float(repr(x)) == x`), `csv.DictWriter` (header, blanks for missing keys,
  ValueError on extra keys; its text and the reader are modelled in `CsvText.v`), numpy `arange` filling, `InterpolatedUnivariateSpline(k=1)` = piecewise linear
  with linear extrapolation and ValueError unless x is strictly increasing with >= 2 points, `os.path.join`,
  `str.replace`, `int()` of a float truncates, tkinter prints the exception of a callback.

### 2.1 What is not modelled

* drawing: matplotlib calls after the data series are computed (styles, labels, `savefig`, `show`); they
  are assumed to succeed except that `plot(x, y)` raises for different lengths;
* tkinter widgets and file dialogs: an entry is the text put into it (`edit_json.py`,
  `main_run_and_plot_flowgo_GUI.py`); `edit_json_GUI.py` (a window that calls `open_editor`);
* one-off scripts that hard-code paths and plot field data: `main_plot_flowgo_results.py`,
  `main_plot_results_field_data.py`, `main_run_flowgo.py` (a fixed list of calls of `RunFlowgo.run`, which is
  modelled), `main_run_and_plot_flowgo.py` (the same followed by the plots, both modelled),
  `MaunaUlu74/*.py`, `Venus/*.py`; `setup.py`, the tests and the resources (apart from `template.json`, which
  is written out in `Props_Template.v`, the melts variant in `Props_Template2.v`/`Props_TemplateMelts.v`, and the
  Venus configuration with its slope file in `Props_Venus.v`).

## 3. Simplifications (each also noted at the definition)

* `print` is dropped. Class names, `assert isinstance` in the factory (always true) are dropped.
* `x ** y` with x<0 and non-integer y gives a Python complex; the model reports the failure
  (`ComplexResult`) at that operation; Python raises TypeError at the next comparison or `math.*` call.
* A Costa model returning None is reported as the TypeError its caller raises.
* int 0/1 results are identified with 0.0/1.0. The float iteration counter is a nat.
* `float(str)`: decimal/exponent notation only (no nan/inf words, no underscores). ASCII only for lower/strip.
* Powers of ten written `10**(-6)` in the code are literals. In `RNum` literals are exact rationals.
* The file system is a map from paths to contents: no permissions; opening
  a result file for writing succeeds; creating the results folder is not modelled. Except in
  `Crash.v` (C81, C82) writes are atomic and a program has the disk for itself. `Crash.v` models a run, a sweep and
  an editor session as processes whose operations are: read a whole file, open for writing (which empties it), flush
  up to k characters, close. A file whose writer was killed or is at work reads as an arbitrary (`garbled`) file.
  Computation between operations touches no file, so a kill during it is a kill before the next operation. A read is
  one operation (`json.load`, `readlines` read to the end at once). Data lost by the operating system after
  close (power failure without fsync) is not modelled.
* `str` of a float is an abstract function; where the editor reads numbers back, the round trip
  `float(repr(x)) == x` is a hypothesis of the theorem (`reads_back`). Python's JSON recursion limit and its
  4300-digit limit on integers are not modelled.
* run_outs.py: `round(x, n)` is an abstract function; that it is accurate to half a unit of the last place is
  the hypothesis `rounds` of C60_rounding_error (met by rounding to nearest, `py_round`).
* binary64: NaN payloads and signs are not represented.
* A loop that the code runs until a condition is modelled with fuel; the theorems either hold for every
  fuel or state the number of iterations that suffices (C11, C20, C57, C58).

## 4. Properties: what is modelled and how it is proved

| id | model / instance | method |
|---|---|---|
| C01-C04 | Logger, any Num | refinement to a finite map of last writes; induction over the call list; a refused export leaves the rows before it (`Props_Files.v`) |
| C05, C06 | Logger+Integrator+Run, any Num | frame invariant: a step's writes have a fixed name sequence |
| C07-C10, C17 | Integrator, any Num | inversion of `single_step` into three outcomes, induction over steps |
| C11-C16 | Integrator, RNum | ranking function; algebra on the step equations; induction over steps |
| C18, C19 | Integrator, any Num (C19 witness RNum) | case analysis; induction over the search; counterexample |
| C20-C23 | Lava, RNum | fixed viscosity => second iteration converges; (1-r)^2(2+r)/2 factorisation |
| C24-C36, C75 | rheology and thermal models, RNum | real analysis (Rpower monotone, exp/ln, erf), closed forms, witnesses for refutations |
| C37-C45 | fluxes, budget, RNum / any Num | closed forms, linear algebra, log frame |
| C46-C48 | Terrain, any Num / RNum | induction over lines / lists |
| C49-C53, C59 | Factory, Run, any Num | case analysis over selectors; the names of result files spelled out (`Props_Files.v`) |
| C54, C60, C61 | EffArray, RNum / any Num | list arithmetic, file-system algebra |
| C55 | JsonText+EditJson | structural induction over JSON and texts, witnesses; a second unedited save is proved to change nothing by inverting the map over the fields (`Props_EditTwice.v`); any text read back from `str` of a non-text value gives that value or none, by induction on the value, so a field saved again and again settles (`Props_EditSettle.v`) |
| C56 | Factory+Integrator, RNum and FNum | symbolic execution of the steps; NaN propagation in binary64 |
| C57 | everything, RNum | safety invariant preserved by every step + C11; `valid` set-ups never raise, `admissible` ones (packing limit within reach) raise only at a step that finds the crystal fraction exactly at the limit. `Props_Template`/`Props_Template2` show the two shipped JSON files meet the hypotheses |
| C58 | FNum (Flocq binary64) | monotonicity of rounding, absorption witness |
| C62 | Run, any Num / RNum | the rows of a run against its steps, induction |
| C63 | everything, RNum | sign of every flux, C57 and C11 |
| C64-C66 | Factory+Run, any Num | inversion of every reader; two configurations that agree on the consulted keys |
| C67 | Run, any Num | lockstep of two runs that differ in the limit |
| C68, C69 | Plot, Gui, any Num (parts RNum, FNum) | column presence, induction over files, case analysis over answers |
| C70, C71, C74 | everything, any Num / RNum | relational (two-run) invariants composed over the monad |
| C72, C73 | everything, any Num / RNum | trace of steps behind a table; telescoping sums |
| C76 | everything, RNum | closed form of every logged cell, which call wrote it last, and C72's trace |
| C77 | single_step, run_loop, init, logger, RNum | a step ignores the counter (after the first), flux_rate and the configured vent in volume mode; the recomputed effusion rate equals the old one; the logger is write-only (C70) |
| C78 | single_step, FNum with any libm (Flocq) | forward error analysis: products and quotients of numbers within 2^±200 have relative error 2^-53 each (FloatErr.v), chained through the formulas of a completed step; the sum over steps by induction; exact sums of multiples of a power of two |
| C79 | single_step, run_loop, RNum | two sums with steps h and h/m compared step by step (discrete Gronwall); the gradients of a row as one bounded Lipschitz function of position, temperature and crystal fraction (`Props_RefineRun.v`; volume and mass mode; thresholds and strain-rate rheologies are outside); `Props_RefineDemo.v` runs the shipped template |
| C80 | single_step, run_loop, fluxes, RNum | comparison of two Euler sequences whose gradients are ordered: the gradient is Lipschitz (C79), so with a step below 1/(L(1+rate)) the order of the temperatures survives a step; crystals are linear in temperature (basic crystallization), so hotter means fewer crystals, lower viscosity and yield strength (C24, C26, C31) and a faster flow that passes every stop test the first run passed (`Props_Compare.v`); the parameter-by-parameter comparison of the fluxes is in `Props_Weaker.v`, the shipped template in `Props_WeakerDemo.v` |
| C81 | Crash.v: run, sweep, editor session as processes on a disk | general facts on processes by induction (`CrashProofs.v`): what a prefix of moves leaves, restart when nothing needed is written; the processes left alone are `run`, `run_effusion_rates`, `session` of the other chapters (`C81_left_alone`, `C81_sweep_left_alone`) |
| C82 | Crash.v, arbitrary interleavings | each process of an independent family behaves as if alone (induction on the schedule); counterexample on the shipped template for two sweeps in one folder (`Props_CrashDemo.v`) |
| C83 | Integrator.v, Terrain.v, Run.v | two integrators that agree at the positions of an upstream set step alike as long as they are inside (`Causal.v`, any arithmetic, closure over every model); the tables' first difference lies outside (`Props_Causal.v`); slope files with common first lines, through the smoothing window and the interpolation (`Props_CausalFile.v`); the shipped template with two channel ends (`Props_CausalDemo.v`) |
| C84 | CsvText.v, Logger.v, any Num (witnesses RNum) | induction over characters, fields and records against the states of the reader; every prefix of the text; `C84_model_reads_the_text` ties the symbolic cells of `Logger.v` and `EffArray.v` to the text. Hypothesis: the numbers print so that `float()` reads them back |
| C85 | Vesicle.v, Thermal.v, Factory.v, Run.v | the models two such configurations build agree at the positions up to both critical distances (case analysis over every selector, `Props_Far.v`), then C83; the template with three two-zone models (`Props_FarDemo.v`) |
| C86 | Integrator.v, Lava.v, Thermal.v, Flux.v, Factory.v | the search stops no earlier for a larger target (induction on the tries, `Props_Faster.v`); a faster lava uncovers more core but loses less heat per metre: chord bounds on exp and powers (`Faster.v`) give heat loss / (velocity x depth) decreasing, then the comparison argument of C80 row by row; hypotheses: alpha <= 0, no viscous-heating or Snyder flux, and a condition on the crust for the two-component and quadratic emissivities (`tame`), lava able to move at the vent (otherwise the formula is outside its range, C19/C22), small enough step; template at 1.4 m against 2 m and for any two positive rates (`Props_FasterDemo.v`) |
| C87 | single_step, run_loop, RNum | lava that flows at v0 has a stress margin, so nearby states flow at v0/2 (Lipschitz bounds of C79, `speed_nearby`); induction over the coarse rows, inside it over the fine steps: the fine run stays near the coarse row, so it passes every stop test and the error bound of `Refine.v` applies to the part reached so far; limits by completeness of R (`Props_Finer.v`); all runs of the template (`Props_FinerDemo.v`) |
| C88 | single_step, run_loop, RNum | the scheme of C86 with another order at one point: `jb_monotone` for yield strength, basal stress and viscosity, `tame_loss` for the heat lost per unit of lava carried, hotter lava flows better (C80); steeper profiles through the spline (`steeper_between`, C48) and sin increasing on [0, pi/2] (`Props_Easier.v`); template on steeper ground and with a thinner melt (`Props_EasierDemo.v`) |
| C89 | single_step, run_loop, RNum | the comparison of C88 for one set-up and two crystal fractions: the point of the second run is compared with the point of the first set-up at the same place and temperature (`Here`), then along the first set-up's crystal line (Lipschitz slope, C79); a set-up with fewer crystals still only loses heat (`losing_fewer`), and the model's copy of the fraction is not read by a step (`crystals_simulate`) (`Props_Fewer.v`); template with 5 % instead of 10.4 % (`Props_FewerDemo.v`) |
| C90 | single_step, run_loop, RNum | all runs that start within a vent state follow one Lipschitz law (`one_law`, from the explicit gradients of C79), so the difference grows at most by exp(L * distance) (`drift`) (`Props_Close.v`); template with eps less crystals, the constant fixed before eps, rows and step (`Props_CloseDemo.v`); a continuity argument row by row as in C91 shows that lava flows on after a small change at the vent (`Props_CloseVent.v`, on the template for every small change of temperature and crystals in `Props_CloseVentDemo.v`) |
| C91 | single_step, run_loop, RNum | the two runs are Euler sums of two laws on one domain (`gradients_full`, C79); the laws differ by eps times the bounded gradient, so the rows drift apart by at most x exp(L x) times that (`drift_apart`); flux by flux, relative errors of the parameters give relative errors of the loss (`near_law`; the air temperature through the definite excess of a warm surface over the air, `net_near`, `convecting_margin`) (`Props_CloseLosses.v`); that the second run flows as far: step by step as in C87, a row close to one that moves at v0 moves at v0/2 and passes the stop tests (`drift_once`, `Props_CloseFlow.v`); template against a set-up with five parameters changed by up to 2 %, and against a wind 1+delta times as strong (`Props_CloseLossesDemo.v`) |
| C92 | JsonText+EditJson | a separate inductive grammar (`JsonGrammar.v`: strings, escapes, surrogate pairs, UTF-8, numbers, nested values, objects as keys in first order with last values); soundness by induction on the fuel of the scanner, completeness by mutual induction on derivations with the fuel bounded by the length (`Props_Grammar.v`); examples and refused texts (`Props_GrammarDemo.v`) |
| C93 | JsonDump+JsonText | `JsonDump.v` models the text of `json.dump(v, f, indent=4)` (json/encoder.py: escapes, surrogate pairs, indentation); by induction on the value that text is a derivation of the grammar of C92, so C92 reads it back; texts and keys of a value read from an ASCII file satisfy the hypothesis by induction on the grammar (`Props_Dump.v`); for UTF-8 files and whole editor sessions the texts have no surrogates, and stay so when cut at ASCII characters, by induction on the grammar and on `rebuild_dict` (`Props_DumpText.v`, an edited session in `Props_DumpTextDemo.v`); a template with non-ASCII text and a split surrogate pair that is read back as another text (`Props_DumpDemo.v`) |

Properties whose English statement is false of the code are stated as what the code does, with a theorem
`..._refuted`/witness for the part that fails (C19, C21, C25, C31, C39, C43, C52, C54, C55, C56, C68, C69, C76, C84).

## 5. Axioms

`Print Assumptions` for every theorem of MANIFEST.json is recorded in `ASSUMPTIONS.md` (regenerate with
`tools/assumptions.py` after a build).  Only axioms of Coq's standard library occur:

* `Coq.Reals.ClassicalDedekindReals.sig_forall_dec`, `Coq.Reals.ClassicalDedekindReals.sig_not_dec`
  (the real numbers), `Coq.Logic.FunctionalExtensionality.functional_extensionality_dep`,
  `Coq.Logic.Classical_Prop.classic` (through Coquelicot's integrals and the reals) — theorems over `R` and binary64;
* theorems stated for every `Num T` are closed under the global context, except for those listed there.

`coqchk` additionally names `Coq.Reals.Rdefinitions.RbaseSymbolsImpl.*`, `Coq.Reals.Rdefinitions.RinvImpl.*` and
`Coq.ssr.ssrunder.Under_rel.*`: opaque modules of the standard library sealed by a signature, present because the
library files are loaded.  The development adds no axiom, switches off no check, and has no functor or module type.

## 6. Tests of the theorems against wrong programs

`seeded/LOG.jsonl` records, for each seeded bug, the edited definition, the edit, the claim it breaks, the theorems
that stopped proving and, for the bugs that survived, the theorem added or tightened.
Of the 356 bugs, on 216 definitions, 19 survived the theorems of their day and led to
the additions recorded under `tightened` (or are noted there as changing nothing over the reals or nothing the claim
speaks of); the others were rejected at once. Each bug was made in a copy of the sources outside /verif, which was
then rebuilt as far as it goes.

## 7. Fidelity of the model

Nothing of /repo can be run here, but the model can: with the binary64 instance and the C library of `SoftLibm.v`,
`tools/fidelity.py` evaluates it with `vm_compute` on the developers' own numbers: the numeric assertions of
/repo/tests, and whole runs compared with the result tables shipped in the repository, cell by cell.  The results are
in `FIDELITY.md`; in short all numeric assertions are met, and the two tables written by the present code are reproduced
to the last bit or to a few units in the last place.  No theorem depends on these runs or on `SoftLibm.v`.
