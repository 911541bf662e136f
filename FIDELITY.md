# Running the model on the developers' own numbers

`tools/fidelity.py` (after a build of `rocq/`) evaluates the model with `vm_compute` in IEEE binary64
(`FNum.v`, Flocq) with the C library of `SoftLibm.v` (128-bit fixed point, rounded once).  Nothing of /repo is
executed: configuration files, slope files and expected numbers are read as text.  The slope files go through the
model's reader, the configurations through the model's factory, the table is the model's logger.

## The numeric assertions of /repo/tests  (`fidelity.py tests`)

97 numeric assertions of the unit tests (melt, relative and bubble viscosity, vesicles, yield strength, crystallization,
crust temperature and cover, material lava/air, the fluxes, terrain, integrator): 97 met, with the tolerance the test
itself states.  One test of the developers cannot be met by the present code either: the JSON of the mader bubbles test
lacks the key `vesicle_radius` the code reads.

## Result tables shipped in /repo  (`fidelity.py runs N`)

| N | configuration, table | result |
|---|---|---|
| 0 | `template_2.json`, `results_flowgo_template2_10m3s_valid.csv` | all 108 rows x 30 columns **bit-identical**, same columns in the same order |
| 1 | `template.json`, `template_3m3s_valid.csv` | all 67 rows; every column within 6e-16 relative (spectral_radiance 1e-13). The table is from an older version: no strain_rate column |
| 2 | `template.json` with 15 m3/s, `results_flowgo_template_15m3s.csv`, first 200 of 905 rows | row 0 bit-identical in every column but effective_radiation_temperature and what follows from it: the table is from a version that did not subtract the fourth power of the air temperature (786.668^4 - 782.848^4 = 293.15^4). 8 of 26 columns identical in all rows, the others drift by at most 2% |
| 3 | `MaunaUlu74/input_parameters_MaunaUlu74_this_study.json`, `results_flowgo_Mauna Ulu June 1974 Best fit_165m3s.csv`, first 150 of 695 rows | all 150 rows; every column within 3.3e-16 relative (one unit in the last place, in at most 3 of the 150 rows), 16 of 28 columns **bit-identical** in every row. No strain_rate and vesicle_fraction columns in the table |
| 4 | `Venus/Tolb_1975_Venus.json`, `results_flowgo_template_test_rad_snyder_700m3s.csv`, first 200 of 3831 rows | all 200 rows; 14 of 26 columns **bit-identical** in every row, the others within 1.4e-15 relative (from row 102 on, where the table's slope is one ulp off: another arctangent). The table is from an older version: no strain_rate and vesicle_fraction columns |
