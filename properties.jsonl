{"id": "C01", "title": "Logger is last-write-wins per (position, name)", "statement": "After any sequence of add_variable(name, position, value) calls on a cleared logger, the value recorded for (position, name) is the value of the last call with that position and name, and nothing is recorded for pairs never written (except that every row also carries its own position under 'position', and a write to the name 'position' is excluded).", "quantifier": "every finite call sequence, every position type with ==, every name and value", "why_tests_cant": "call histories are unbounded; interleavings of repeated positions and names cannot be enumerated", "anchors": ["pyflowgo/flowgo_logger.py:add_variable"]}
{"id": "C02", "title": "One row per distinct position, first-seen order, rows never lost", "statement": "The table has exactly one row per distinct position ever logged, in the order in which the positions were first logged; logging never removes or reorders rows or columns.", "quantifier": "every finite call sequence with a position equality that is an equivalence (excludes NaN, which is shown to break it)", "why_tests_cant": "unbounded histories", "anchors": ["pyflowgo/flowgo_logger.py:add_variable"]}
{"id": "C03", "title": "get_values is aligned across variables", "statement": "For every variable name, get_values(name) has one element per row, in row order, so get_values('position') and get_values(name) zip together: element i is what was last logged for name at the i-th distinct position, or None.", "quantifier": "every call history and every name", "why_tests_cant": "unbounded histories", "anchors": ["pyflowgo/flowgo_logger.py:get_values"]}
{"id": "C04", "title": "CSV export is faithful or refused", "statement": "write_values_to_file writes nothing for an empty table; otherwise the header is the column list of the first row, each data line has exactly one field per header column holding the row's value or blank, and it raises ValueError exactly when some later row has a column that the first row does not have.", "quantifier": "every table", "why_tests_cant": "shapes of tables are unbounded", "anchors": ["pyflowgo/flowgo_logger.py:write_values_to_file"]}
{"id": "C05", "title": "A new RunFlowgo starts from an empty table; a reused one does not", "statement": "Creating RunFlowgo() empties the shared table whatever was logged before, so the CSV of a fresh runner depends only on its inputs; calling run() twice on one runner keeps the first run's rows (isolation is violated).", "quantifier": "every previous history of the process-wide logger", "why_tests_cant": "global singleton state: depends on every prior history", "anchors": ["pyflowgo/run_flowgo.py:RunFlowgo.__init__", "pyflowgo/run_flowgo.py:RunFlowgo.run", "pyflowgo/flowgo_logger.py:Singleton"]}
{"id": "C06", "title": "The table a run produces can always be exported", "statement": "Every row a run logs after a step completes has the same columns as the first, so a run whose steps all complete writes its CSV without DictWriter raising; only the last row may be incomplete (a step abandoned after the heat budget), and it only lacks columns.", "quantifier": "every configuration and every number of steps", "why_tests_cant": "needs an invariant over all steps of all runs", "anchors": ["pyflowgo/flowgo_integrator.py:single_step", "pyflowgo/flowgo_heat_budget.py:compute_heat_budget", "pyflowgo/flowgo_logger.py:write_values_to_file"]}
{"id": "C07", "title": "Bookkeeping of one completed step", "statement": "When a step completes, position advances by exactly step_size, time by step_size divided by the mean velocity of that step, the strain rate becomes 3*v/depth of that step, and crystal fraction and temperature move by step_size times the logged dphi_dx and dtemp_dx.", "quantifier": "every model combination, terrain, state and arithmetic (real or IEEE)", "why_tests_cant": "every state and every numeric interpretation", "anchors": ["pyflowgo/flowgo_integrator.py:single_step"]}
{"id": "C08", "title": "Finished stays finished; a step that stops early changes nothing but the strain rate and the log", "statement": "Once has_finished() is true no later single_step makes it false again; a step that terminates for zero velocity or new_phi<=phi leaves position, time, crystal fraction, temperature and channel depth unchanged.", "quantifier": "every state, every further step", "why_tests_cant": "history property", "anchors": ["pyflowgo/flowgo_integrator.py:single_step", "pyflowgo/flowgo_integrator.py:has_finished"]}
{"id": "C09", "title": "An unfinished flow satisfies every stopping threshold", "statement": "After any number of steps from any start, if has_finished() is false and at least one step was made, then position < max_channel_length (as tested), core temperature is above the solidus, the crystal fraction is one the rheology model accepts and the yield strength is below the basal shear stress.", "quantifier": "every run length, every model combination, every arithmetic (negated comparisons, so NaN is covered)", "why_tests_cant": "invariant over unbounded runs", "anchors": ["pyflowgo/flowgo_integrator.py:single_step"]}
{"id": "C10", "title": "The row logged for a step is the state before the step", "statement": "The row at position x holds the crystal fraction, core temperature, vesicle fraction, density, velocity, slope, depth, effusion rate, yield strength and shear stress evaluated for the state on entry to the step at x, not the updated one; rows of earlier positions are never modified.", "quantifier": "every step of every run", "why_tests_cant": "every step, every state", "anchors": ["pyflowgo/flowgo_integrator.py:single_step"]}
{"id": "C11", "title": "Every run terminates, within a bound known in advance", "statement": "If step_size>0 the run loop stops after at most ceil((max_channel_length-start)/step_size) (at least one) completed steps, whatever the physics does (unless it raises).", "quantifier": "every configuration with step_size>0, every physics", "why_tests_cant": "non-termination needs a proof for all inputs", "anchors": ["pyflowgo/flowgo_integrator.py:single_step", "pyflowgo/run_flowgo.py:RunFlowgo.run"]}
{"id": "C12", "title": "Crystals only grow", "statement": "On every completed step the crystal fraction strictly increases, and for a positive crystallization rate the core temperature strictly decreases; so along a run both sequences are strictly monotone.", "quantifier": "every run", "why_tests_cant": "all states, all run lengths", "anchors": ["pyflowgo/flowgo_integrator.py:single_step"]}
{"id": "C13", "title": "Crystallization follows cooling", "statement": "On every completed step the crystal increment equals the crystallization rate times the temperature drop; with the constant-rate model phi + rate*T is conserved along the whole run, and phi never exceeds the value reached by cooling to the final temperature.", "quantifier": "every run, real arithmetic", "why_tests_cant": "invariant over runs", "anchors": ["pyflowgo/flowgo_integrator.py:single_step", "pyflowgo/flowgo_crystallization_rate_model_basic.py"]}
{"id": "C14", "title": "Energy balance of a step", "statement": "On every completed step the latent heat released, effusion_rate*density*latent_heat*delta_phi, equals the heat budget times step_size.", "quantifier": "every completed step, real arithmetic", "why_tests_cant": "algebraic law for all states", "anchors": ["pyflowgo/flowgo_integrator.py:single_step"]}
{"id": "C15", "title": "Volume conservation", "statement": "In volume mode, on every step v*width*depth equals the effusion rate fixed at the first step, and on the first step the width is the configured width.", "quantifier": "every step of every run, real arithmetic", "why_tests_cant": "invariant over runs", "anchors": ["pyflowgo/flowgo_integrator.py:single_step"]}
{"id": "C16", "title": "Mass conservation", "statement": "In mass mode, on every step density*v*width*depth equals the mass flux fixed by the initial depth search.", "quantifier": "every step of every run, real arithmetic", "why_tests_cant": "invariant over runs", "anchors": ["pyflowgo/flowgo_integrator.py:single_step", "pyflowgo/flowgo_integrator.py:init_effusion_rate"]}
{"id": "C17", "title": "Effusion rate and depth are constants of the run", "statement": "Steps never change the channel depth, and after the first step never change the effusion rate; the mass flux is never changed by a step.", "quantifier": "every step, every arithmetic", "why_tests_cant": "history property", "anchors": ["pyflowgo/flowgo_integrator.py:single_step"]}
{"id": "C18", "title": "Mass conservation without an imposed effusion rate", "statement": "A run with mass_conservation true and effusion_rate_init 0 cannot complete a step: if the velocity is positive the first step raises AttributeError.", "quantifier": "every such configuration", "why_tests_cant": "universally quantified failure", "anchors": ["pyflowgo/flowgo_integrator.py:single_step", "pyflowgo/flowgo_integrator.py:init_effusion_rate"]}
{"id": "C19", "title": "Initial depth search", "statement": "With effusion_rate_init != 0 the search stops at the first depth of the grid 0.01, 0.011, ... whose flow rate reaches the target and leaves that depth, flow rate and mass flux set; if no depth of the grid reaches it, it silently keeps the last depth below 50 m. The depth found need not be one at which lava can flow (yield strength may exceed basal stress).", "quantifier": "every configuration", "why_tests_cant": "search over every configuration", "anchors": ["pyflowgo/flowgo_integrator.py:init_effusion_rate"]}
{"id": "C20", "title": "Mean velocity is the Jeffreys-Bingham formula and the solver always converges", "statement": "For a non-zero depth, compute_mean_velocity returns h*tb/(3*mu)*(1-1.5r+0.5r^3), r=t0/tb, with mu evaluated at the strain rate the state has on entry; in exact arithmetic its iteration never fails to converge, and afterwards the state's strain rate is 3v/h.", "quantifier": "every state, terrain and rheology, real arithmetic", "why_tests_cant": "all inputs", "anchors": ["pyflowgo/flowgo_material_lava.py:compute_mean_velocity"]}
{"id": "C21", "title": "Velocity is consistent with the strain rate it sets", "statement": "After compute_mean_velocity, calling it again returns the same velocity. True for strain-independent rheologies; false for strain-dependent ones (the loop never feeds the strain rate back).", "quantifier": "every state; refuted by a witness for strain-dependent rheology", "why_tests_cant": "needs both a universal proof and a counterexample", "anchors": ["pyflowgo/flowgo_material_lava.py:compute_mean_velocity", "pyflowgo/flowgo_relative_viscosity_model_bll.py", "pyflowgo/flowgo_relative_viscosity_bubbles_model_mader.py"]}
{"id": "C22", "title": "Velocity sign", "statement": "With positive depth, viscosity and basal stress and non-negative yield strength the velocity is never negative and is zero only if the yield strength equals the basal stress; lava should not move when the yield strength exceeds the basal stress, but then the formula gives a positive velocity.", "quantifier": "all values, real arithmetic", "why_tests_cant": "inequality over a continuum", "anchors": ["pyflowgo/flowgo_material_lava.py:compute_mean_velocity"]}
{"id": "C23", "title": "Velocity responds monotonically", "statement": "While the yield strength is below the basal stress, velocity decreases with viscosity and with yield strength, and increases with slope-driven basal stress and depth.", "quantifier": "all values, real arithmetic", "why_tests_cant": "inequality over a continuum", "anchors": ["pyflowgo/flowgo_material_lava.py:compute_mean_velocity"]}
{"id": "C24", "title": "Relative viscosity is at least one and increases with crystals", "statement": "For er, kd, mp, mp_mueller, ptp1, ptp2, ptp3 (and mader, bll in the Newtonian regime): within the compatible range the relative viscosity is defined, >= 1 and strictly increasing in the crystal fraction.", "quantifier": "all crystal fractions and parameters in range, real arithmetic", "why_tests_cant": "inequality over a continuum", "anchors": ["pyflowgo/flowgo_relative_viscosity_model_er.py", "pyflowgo/flowgo_relative_viscosity_model_kd.py", "pyflowgo/flowgo_relative_viscosity_model_mp.py", "pyflowgo/flowgo_relative_viscosity_model_ptp1.py"]}
{"id": "C25", "title": "Compatibility check is sound", "statement": "If is_notcompatible(state) is False then compute_relative_viscosity(state) is defined and positive. True for er, and for bll when the vesicle fraction is strictly between 0 and 1; false exactly at the packing limit for kd, mp, mp_mueller, ptp1..3 (and for bll without vesicles), where the division by zero raises; mader accepts crystal fractions beyond its packing limit, where the viscosity is defined (for a positive strain rate) but decreases with crystals.", "quantifier": "all states; refuted with witnesses for the models where it fails", "why_tests_cant": "boundary cases of a continuum", "anchors": ["pyflowgo/flowgo_relative_viscosity_model_bll.py:is_notcompatible", "pyflowgo/flowgo_relative_viscosity_model_costa.py:is_notcompatible", "pyflowgo/flowgo_relative_viscosity_model_costa1.py:is_notcompatible", "pyflowgo/flowgo_relative_viscosity_model_costa2.py:is_notcompatible", "pyflowgo/flowgo_relative_viscosity_model_er.py:is_notcompatible", "pyflowgo/flowgo_relative_viscosity_model_kd.py:is_notcompatible", "pyflowgo/flowgo_relative_viscosity_model_mader.py:is_notcompatible", "pyflowgo/flowgo_relative_viscosity_model_mp.py:is_notcompatible", "pyflowgo/flowgo_relative_viscosity_model_mp_mueller2010.py:is_notcompatible", "pyflowgo/flowgo_relative_viscosity_model_ptp1.py:is_notcompatible", "pyflowgo/flowgo_relative_viscosity_model_ptp2.py:is_notcompatible", "pyflowgo/flowgo_relative_viscosity_model_ptp3.py:is_notcompatible"]}
{"id": "C26", "title": "Melt viscosity is positive and falls with temperature", "statement": "For basic (positive eruption viscosity), shaw (positive slope, T>0) and vft (b>0, T>c) the melt viscosity is defined, positive and strictly decreasing in temperature.", "quantifier": "all temperatures, real arithmetic", "why_tests_cant": "continuum", "anchors": ["pyflowgo/flowgo_melt_viscosity_model_basic.py", "pyflowgo/flowgo_melt_viscosity_model_shaw.py", "pyflowgo/flowgo_melt_viscosity_model_vft.py"]}
{"id": "C27", "title": "Bubble correction direction", "statement": "For vesicle fraction in (0,1): rigid bubbles raise the viscosity, deformable ones lower it, 'no' leaves it, and mader returns the rigid value when the capillary number is below 1 and the deformable value otherwise.", "quantifier": "all vesicle fractions, states", "why_tests_cant": "continuum", "anchors": ["pyflowgo/flowgo_relative_viscosity_bubbles_model_defo.py", "pyflowgo/flowgo_relative_viscosity_bubbles_model_mader.py", "pyflowgo/flowgo_relative_viscosity_bubbles_model_no.py", "pyflowgo/flowgo_relative_viscosity_bubbles_model_rigid.py"]}
{"id": "C28", "title": "Bulk viscosity is the product of melt, crystal and bubble factors", "statement": "computes_bulk_viscosity is melt*crystal*bubble for the same state, is positive when the factors are, and does not modify the state.", "quantifier": "every state, every arithmetic", "why_tests_cant": "all inputs", "anchors": ["pyflowgo/flowgo_material_lava.py:computes_bulk_viscosity"]}
{"id": "C29", "title": "Vesicle fraction stays in range", "statement": "constant, bimodal, variable and poly never return a negative fraction (given non-negative constants); variable and poly stay at most the configured fraction for non-positive growth; variable_bimodal is continuous at the critical distance but can become negative.", "quantifier": "all positions and parameters; witness for the failing model", "why_tests_cant": "continuum", "anchors": ["pyflowgo/flowgo_vesicle_fraction_model_bimodal.py", "pyflowgo/flowgo_vesicle_fraction_model_constant.py", "pyflowgo/flowgo_vesicle_fraction_model_poly.py", "pyflowgo/flowgo_vesicle_fraction_model_variable.py", "pyflowgo/flowgo_vesicle_fraction_model_variable_bimodal.py"]}
{"id": "C30", "title": "Bulk density is between 0 and DRE density", "statement": "For a vesicle fraction in [0,1) the bulk density is in (0, density_dre] and strictly decreases with vesicularity.", "quantifier": "all fractions, real arithmetic", "why_tests_cant": "continuum", "anchors": ["pyflowgo/flowgo_material_lava.py:get_bulk_density"]}
{"id": "C31", "title": "Yield strength is positive and grows with crystallinity and cooling", "statement": "For basic, dragoni, ryerson and bll with crystal fraction in range: yield strength is non-negative, non-decreasing in crystal fraction and non-increasing in temperature; dragoni-alone ignores crystals.", "quantifier": "all states, real arithmetic", "why_tests_cant": "continuum", "anchors": ["pyflowgo/flowgo_yield_strength_model_basic.py", "pyflowgo/flowgo_yield_strength_model_bll.py", "pyflowgo/flowgo_yield_strength_model_dragoni.py", "pyflowgo/flowgo_yield_strength_model_dragoni_alone.py", "pyflowgo/flowgo_yield_strength_model_ryerson.py"]}
{"id": "C32", "title": "Stop criterion agrees with what is logged", "statement": "For every yield-strength model, yield_strength_notcompatible is true exactly when the yield strength get_yield_strength reports is >= the basal shear stress get_basal_shear_stress reports for the same state, and basal stress is depth*density*g*sin(slope), the same in all five models.", "quantifier": "every model, state and terrain, every arithmetic", "why_tests_cant": "all inputs", "anchors": ["pyflowgo/flowgo_yield_strength_model_basic.py", "pyflowgo/flowgo_yield_strength_model_bll.py", "pyflowgo/flowgo_yield_strength_model_dragoni.py", "pyflowgo/flowgo_yield_strength_model_dragoni_alone.py", "pyflowgo/flowgo_yield_strength_model_ryerson.py", "pyflowgo/flowgo_material_lava.py:yield_strength_notcompatible"]}
{"id": "C33", "title": "Costa models", "statement": "costa1/costa2 are defined only for the strain_rate parameters 1.0 and 0.0001 (any other value makes the run fail with TypeError); when defined and crystal fraction >= 0 the relative viscosity is defined and at least 1 for every crystal fraction.", "quantifier": "all crystal fractions and parameters, real arithmetic with erf as the Gaussian integral", "why_tests_cant": "continuum, special function", "anchors": ["pyflowgo/flowgo_relative_viscosity_model_costa1.py", "pyflowgo/flowgo_relative_viscosity_model_costa2.py"]}
{"id": "C34", "title": "Crystallization-rate models", "statement": "basic has constant rate grown/(Terupt-Tsolid), positive if grown>0 and Terupt>Tsolid, so cooling exactly to the solidus grows exactly crystals_grown; bimodal switches strictly after the critical distance, bimodal_f_temp strictly below the critical temperature; melts uses a central difference of the table. A MELTS table in degrees Celsius is read so that at the temperature of a row (in kelvin) the fraction is the row's.", "quantifier": "all states", "why_tests_cant": "continuum and boundaries", "anchors": ["pyflowgo/flowgo_crystallization_rate_model_basic.py", "pyflowgo/flowgo_crystallization_rate_model_bimodal.py", "pyflowgo/flowgo_crystallization_rate_model_bimodal_f_temp.py", "pyflowgo/flowgo_crystallization_rate_model_melts.py"]}
{"id": "C35", "title": "Crust temperature models", "statement": "hon decreases with time and needs time > 0 (time 0 raises ValueError); bimodal follows hon up to the critical distance inclusive and is constant after; constant never varies; field interpolates its table. hr2001 (not selectable) is the core temperature minus 712.", "quantifier": "all states", "why_tests_cant": "continuum and boundaries", "anchors": ["pyflowgo/flowgo_crust_temperature_model_bimodal.py", "pyflowgo/flowgo_crust_temperature_model_constant.py", "pyflowgo/flowgo_crust_temperature_model_field.py", "pyflowgo/flowgo_crust_temperature_model_hon.py", "pyflowgo/flowgo_crust_temperature_model_hr2001.py"]}
{"id": "C36", "title": "Crust cover fraction is a fraction", "statement": "For a cover fraction in [0,1], alpha<=0 and v>=0 the effective cover is in [0,1] and decreases with velocity; bimodal switches strictly after the critical distance.", "quantifier": "all velocities, real arithmetic", "why_tests_cant": "continuum", "anchors": ["pyflowgo/flowgo_effective_cover_crust_model_basic.py", "pyflowgo/flowgo_effective_cover_crust_model_bimodal.py"]}
{"id": "C37", "title": "Radiative flux", "statement": "For the four radiation models the flux equals sigma*emissivity*(f*(Tc^4-Ta^4)+(1-f)*(Th^4-Ta^4))*width, it is defined exactly when that mixture is not negative, and is non-negative when both surface temperatures are at least the air temperature.", "quantifier": "all states, real arithmetic", "why_tests_cant": "continuum", "anchors": ["pyflowgo/flowgo_flux_radiation_heat.py", "pyflowgo/flowgo_flux_radiation_heat_emissivity.py", "pyflowgo/flowgo_flux_radiation_heat_emissivity_cont.py", "pyflowgo/flowgo_flux_radiation_heat_lin_emi.py"]}
{"id": "C38", "title": "Effective emissivity is a mixture", "statement": "2_emi: the effective emissivity lies between the crust and hot emissivities; cont: it is the mixture of quadratic emissivities and lies in (0,1) for temperatures up to 1700 K; lin_emi: linear in the effective temperature.", "quantifier": "all temperatures and cover fractions in range", "why_tests_cant": "continuum", "anchors": ["pyflowgo/flowgo_flux_radiation_heat_emissivity.py", "pyflowgo/flowgo_flux_radiation_heat_emissivity_cont.py", "pyflowgo/flowgo_flux_radiation_heat_lin_emi.py"]}
{"id": "C39", "title": "Convective surface temperature", "statement": "The characteristic surface temperature should lie between the crust and the molten temperature; it does not (exponents 1.333 and 0.75), but it stays at most max(Tc,Th) and at least max-free lower bound min^0.99975 for temperatures >= 1.", "quantifier": "all temperatures and fractions, real arithmetic", "why_tests_cant": "continuum; witness", "anchors": ["pyflowgo/flowgo_flux_forced_convection_heat.py"]}
{"id": "C40", "title": "Conductive flux", "statement": "The conductive flux is non-negative iff the core is at least as hot as the base, grows with core temperature and falls with depth.", "quantifier": "all states, real arithmetic", "why_tests_cant": "continuum", "anchors": ["pyflowgo/flowgo_flux_conduction_heat.py"]}
{"id": "C41", "title": "Rain and Snyder fluxes", "statement": "Rain loss is rate*density*latent heat*width independent of the state; the Snyder flux is defined and positive for positive temperatures and increases with the effective temperature, which lies between crust and molten temperature.", "quantifier": "all states, real arithmetic", "why_tests_cant": "continuum", "anchors": ["pyflowgo/flowgo_flux_heat_loss_rain.py", "pyflowgo/flowgo_flux_snyder2002fig4_heat.py"]}
{"id": "C42", "title": "Heat budget is the sum of its fluxes and is logged with them", "statement": "The heat budget equals the sum over the configured fluxes, the row holds each flux under its name and the total under heat_budget; for strain-independent rheology the logged fluxes add up to the logged total.", "quantifier": "every list of fluxes, every state", "why_tests_cant": "lists and states unbounded", "anchors": ["pyflowgo/flowgo_heat_budget.py"]}
{"id": "C43", "title": "Viscous heating should warm the flow", "statement": "Adding viscous heating must not increase cooling. It does: the term is added with the sign of a loss.", "quantifier": "every state; refuted", "why_tests_cant": "universal claim refuted by proof", "anchors": ["pyflowgo/flowgo_flux_viscous_heating.py", "pyflowgo/flowgo_heat_budget.py", "pyflowgo/flowgo_integrator.py:single_step"]}
{"id": "C44", "title": "No flux overwrites another's logged value", "statement": "In every heat budget the factory can build, the names under which fluxes are logged are distinct and no flux's own diagnostics overwrite another flux's logged value.", "quantifier": "every configuration the factory accepts", "why_tests_cant": "all configurations, all step states", "anchors": ["pyflowgo/flowgo_model_factory.py", "pyflowgo/flowgo_heat_budget.py"]}
{"id": "C45", "title": "Fluxes are linear in channel width", "statement": "Every flux is proportional to channel width (so heat loss per unit area does not depend on it).", "quantifier": "all states and widths, real arithmetic", "why_tests_cant": "continuum", "anchors": ["pyflowgo/flowgo_flux_conduction_heat.py", "pyflowgo/flowgo_flux_forced_convection_heat.py", "pyflowgo/flowgo_flux_heat_loss_rain.py", "pyflowgo/flowgo_flux_radiation_heat.py", "pyflowgo/flowgo_flux_radiation_heat_emissivity.py", "pyflowgo/flowgo_flux_radiation_heat_emissivity_cont.py", "pyflowgo/flowgo_flux_radiation_heat_lin_emi.py", "pyflowgo/flowgo_flux_snyder2002fig4_heat.py", "pyflowgo/flowgo_flux_viscous_heating.py"]}
{"id": "C46", "title": "Slope profile filtering", "statement": "Reading a slope file keeps, in order, exactly the rows with slope > 0.1 degree, converted to radians; a malformed row raises.", "quantifier": "every file", "why_tests_cant": "unbounded files", "anchors": ["pyflowgo/flowgo_terrain_condition.py:read_slope_from_file"]}
{"id": "C47", "title": "Running mean stays within the window", "statement": "The smoothed slope at i is the mean of the window clipped to the profile, hence between the minimum and maximum of the profile, has the same length and leaves constant profiles unchanged.", "quantifier": "every profile and every window size >= 0", "why_tests_cant": "unbounded lists", "anchors": ["pyflowgo/flowgo_terrain_condition.py:running_mean"]}
{"id": "C48", "title": "Slope interpolation", "statement": "The slope function passes through every profile point and lies between neighbours' values between points; beyond the ends it extrapolates linearly and can become negative although every profile slope is positive.", "quantifier": "every profile and position", "why_tests_cant": "continuum", "anchors": ["pyflowgo/flowgo_terrain_condition.py:get_channel_slope"]}
{"id": "C49", "title": "Factory accepts exactly the documented model names", "statement": "Building models succeeds only if each of the 14 selectors has a documented value, otherwise NameError is raised (missing section or selector: KeyError), and no other exception if the numeric parameters are present; each accepted name selects the model of that name.", "quantifier": "every configuration", "why_tests_cant": "all strings", "anchors": ["pyflowgo/flowgo_model_factory.py"]}
{"id": "C50", "title": "Snyder excludes radiation and convection", "statement": "No accepted configuration has the Snyder flux together with radiation or forced convection; the fluxes appear in the order radiation, conduction, convection, rain, viscous heating, snyder.", "quantifier": "every configuration", "why_tests_cant": "all configurations", "anchors": ["pyflowgo/flowgo_model_factory.py"]}
{"id": "C51", "title": "Configuration errors are reported before anything is logged", "statement": "Missing lava_name, slope_file or step_size raises ValueError naming the key (missing effusion_rate_init: KeyError), and no row is logged and no file written.", "quantifier": "every configuration", "why_tests_cant": "all configurations", "anchors": ["pyflowgo/run_flowgo.py:RunFlowgo.run"]}
{"id": "C52", "title": "mass_conservation accepts booleans and strings", "statement": "run() interprets true/'true'/' TRUE ' as mass conservation and false/absent/other strings as volume conservation; the command-line entry point main_flowgo.py treats the string 'true' as volume conservation.", "quantifier": "every JSON value", "why_tests_cant": "all values", "anchors": ["pyflowgo/run_flowgo.py:RunFlowgo.run", "main_flowgo.py"]}
{"id": "C53", "title": "The result file is where get_file_name_results says", "statement": "Every successful run() writes exactly one file, the one get_file_name_results names, and its content is the exported table (nothing is written when nothing was logged). Two runs in one folder share a file only if lava_name and effusion_rate_init print the same; different integer rates always give different files.", "quantifier": "every configuration and folder", "why_tests_cant": "all names", "anchors": ["pyflowgo/run_flowgo.py:run", "pyflowgo/run_flowgo.py:get_file_name_results"]}
{"id": "C54", "title": "Effusion-rate sweep", "statement": "The sweep runs first, first+step, ... and should stop at last; it can overshoot last by up to step-1 when step does not divide the span. It leaves the template file unchanged unless the output folder is the template's folder, in which case the template is overwritten.", "quantifier": "all integer triples and paths", "why_tests_cant": "all triples, file-system states", "anchors": ["pyflowgo/run_flowgo_effusion_rate_array.py"]}
{"id": "C55", "title": "Saving from the JSON editor: what survives, what changes", "statement": "Opening a configuration in the JSON editor, typing in any fields and saving keeps every section with the same keys in the same order, and each field becomes the JSON value its text denotes, or the text itself if it is not JSON; typing in one field changes no other. Saving unedited reproduces the document exactly when every field is its own re-reading: integers, floats, lists of numbers and strings that are not JSON survive; true, false and null become the strings \"True\", \"False\", \"None\" and strings such as \"12\" change type. A second unedited save changes nothing any more, unless some text is itself the text of a quoted JSON string (which loses its quotes at each save). Whatever the field, saving again and again settles after at most as many saves as its text has characters and two more, unless it turns into a section. In particular an unedited save of a configuration with slope smoothing on switches the smoothing off. Any number of new entries, in any sections and filled in in any order, are all saved, each in its section in order of creation. A new entry is saved in its section and changes nothing else, provided no inner section contains an entry named like the first component of the section's path; otherwise it is also added there or the save fails with nothing written. Keys with dots can collide; a document without sections cannot be saved.", "quantifier": "every configuration with non-empty dot-free keys, every sequence of edits and every added entry", "why_tests_cant": "all JSON documents, unbounded nesting, all texts and edit histories", "anchors": ["edit_json.py:open_editor", "edit_json.py:render_json", "edit_json.py:rebuild_dict", "edit_json.py:add_new_entry_to_section", "pyflowgo/flowgo_terrain_condition.py:read_initial_condition_from_json_file"]}
{"id": "C56", "title": "MELTS crystallization selected in the configuration", "statement": "Selecting 'melts' as the crystallization rate model builds a model whose rate table is never loaded, so its rate is 0. Whatever the other settings, no run completes a step with a usable result: with Python floats the first step raises ZeroDivisionError (or the flow stops before its first row); when the depth is a numpy float, as after the depth search, one row is written, the crystal fraction is NaN and the next step raises.", "quantifier": "every configuration file choosing melts, every state, real and binary64 arithmetic", "why_tests_cant": "universally quantified failure", "anchors": ["pyflowgo/flowgo_model_factory.py", "pyflowgo/flowgo_crystallization_rate_model_melts.py", "pyflowgo/flowgo_integrator.py:single_step"]}
{"id": "C57", "title": "A physically valid configuration runs to the end", "statement": "For configurations within stated physical ranges a run always terminates and every logged row has positive velocity, width, density and viscosity. It never raises when the crystal fraction reached at the solidus is below the rheology's packing limit; without that condition the only exception a run can raise is the one for a crystal fraction exactly equal to the packing limit, in which case no file is written.", "quantifier": "every configuration in range, real arithmetic", "why_tests_cant": "whole-run universally quantified", "anchors": ["pyflowgo/flowgo_integrator.py", "pyflowgo/run_flowgo.py"]}
{"id": "C58", "title": "Floating-point runs: order of the rows and termination in IEEE binary64", "statement": "In IEEE binary64 arithmetic, for a positive finite step size, the position never decreases from step to step and the positions in the result table are strictly increasing, so the table can be written. If one step is absorbed by rounding, every later step leaves the position where it is, the length limit is never reached and at most one more row is added. If the step size is at least 2^-52 times the length limit, the run ends within 2*length/step iterations. With any step size the run ends after a bounded number of iterations, because the crystal fraction either strictly increases at every step or becomes NaN, and a NaN crystal fraction makes the next step raise (when the relative viscosity depends on the crystals and the C library power function propagates NaN).", "quantifier": "all binary64 configurations, states, step sizes and numbers of steps, and all implementations of the C library transcendental functions", "why_tests_cant": "2^64 values, unbounded steps", "anchors": ["pyflowgo/flowgo_integrator.py:single_step", "pyflowgo/run_flowgo.py:run", "pyflowgo/flowgo_logger.py"]}
{"id": "C59", "title": "Models built from one configuration agree on shared parameters", "statement": "All models built from one configuration use one eruption temperature, one vesicle-fraction model, one melt-viscosity model and one relative-viscosity model; the only exception is the bll yield strength, which ignores the configured vesicle model and uses a constant 0.1. The solidus at which the run stops and the initial crystal fraction are those of the configuration for every crystallization model.", "quantifier": "every accepted configuration", "why_tests_cant": "all configurations and combinations of 14 selectors", "anchors": ["pyflowgo/flowgo_model_factory.py:FlowgoModelFactory.__init__"]}
{"id": "C60", "title": "Run-out table", "statement": "get_run_outs writes run_outs_<name>.csv and no other file: one line per result file, in order, up to the first file that cannot be reported; the figure shows the distance and the effusion rate of each line. It raises when a file cannot be reported and also when there is no result file (the file then has only its header). The effusion rate is the one of the first row, depth and width those of the second row, and the reported end point is the last slope-file point whose distance does not exceed the largest logged position plus the second logged position. For a run that starts at position 0 the reported run-out never exceeds the position the flow reached; for a run that starts further down it can. A result file with fewer than two rows, or whose last row is the partial row of an abandoned step, makes it fail. The printed numbers are the run-out rounded: rates and distances to the unit, coordinates to two decimals, elevations to one; depth and width as they are.", "quantifier": "all result tables (all runs), all slope files, all lists of result files", "why_tests_cant": "depends on the length of the run, the start position and the position of every slope point relative to the run-out; a test fixes one run and one profile", "anchors": ["pyflowgo/run_outs.py:run_outs", "pyflowgo/flowgo_logger.py:write_values_to_file"]}
{"id": "C61", "title": "make_new_json changes two keys and one file", "statement": "make_new_json writes to the output path the template with lava_name and slope_file replaced and every other entry unchanged, and touches no other file; it fails only if the template is missing or not a JSON object.", "quantifier": "all templates, names and paths", "why_tests_cant": "must hold for every template content and every path, including output = template", "anchors": ["pyflowgo/run_flowgo_effusion_rate_array.py:make_new_json"]}
{"id": "C62", "title": "One row per completed step, evenly spaced", "statement": "After a run from an empty table, the table has exactly one row per completed step, at start, start+step_size, start+2*step_size, ... in increasing order and all with the same columns, plus at most one partial row at the position where the last step was abandoned after its heat budget.", "quantifier": "all configurations with a non-zero step size, all runs that end without an exception, of any length", "why_tests_cant": "the number of steps is unbounded and the position key is a float; a duplicated, missing or reordered row appears only for particular step counts", "anchors": ["pyflowgo/flowgo_integrator.py:single_step", "pyflowgo/flowgo_logger.py:add_variable", "pyflowgo/run_flowgo.py:run"]}
{"id": "C63", "title": "A flow that only loses heat stops for a physical reason", "statement": "If the configuration is valid and every heat flux of the budget is a loss (radiation, conduction towards a cooler base, convection to cooler air, rain), then a run started from the vent always terminates without an exception (or, where the packing limit can be reached, with the exception for a crystal fraction exactly at the limit); when it ends normally, its table holds exactly one complete row per completed step, and the run stopped either because the lava could not move at the vent (zero steps), or after at least one step because the slope/yield strength stopped it, the core reached the solid temperature, the lava crystallised beyond the packing limit, or the channel length limit was reached.", "quantifier": "all valid configurations (any of the modelled rheologies, crusts, covers and terrain profiles) whose heat budget contains only losses, and all step sizes", "why_tests_cant": "A test observes one configuration; termination for a stated reason must hold for every valid configuration, over a number of steps that is not bounded in advance.", "anchors": ["pyflowgo/flowgo_integrator.py:FlowGoIntegrator.single_step", "pyflowgo/flowgo_integrator.py:FlowGoIntegrator.has_finished", "pyflowgo/flowgo_heat_budget.py:FlowGoHeatBudget.compute_heat_budget", "pyflowgo/run_flowgo.py:RunFlowgo.run"]}
{"id": "C64", "title": "The state a run starts from", "statement": "A run starts at the configured position and time, with the core at the eruption temperature, the configured crystal fraction and the strain rate 3 Q / (depth^2 width) of the configured effusion rate, width and depth; the step size, channel width, gravity, maximum length and initial effusion rate it uses are the configured numbers. A zero depth or width is refused.", "quantifier": "all configurations that the runner accepts", "why_tests_cant": "tests check one configuration; every accepted configuration must start from the values it states", "anchors": ["pyflowgo/run_flowgo.py:run", "pyflowgo/flowgo_integrator.py:initialize_state", "pyflowgo/flowgo_terrain_condition.py:read_initial_condition_from_json_file"]}
{"id": "C65", "title": "Every model parameter is the number at its documented key", "statement": "Each number held by the selected crystallization, vesicle, viscosity, yield strength, lava, crust, cover, air and flux objects after the configuration is read is the float value of the entry of the configuration at the documented section and key for that parameter, not of another entry. (The two built-in values are the subject of other properties: the MELTS rate, C56, and the vesicle fraction of the bll yield strength, C59.)", "quantifier": "all configurations and all combinations of the selectable models", "why_tests_cant": "a swapped key is visible only in configurations where the two entries differ and the particular model is selected", "anchors": ["pyflowgo/flowgo_model_factory.py:FlowgoModelFactory", "pyflowgo/flowgo_material_lava.py:read_initial_condition_from_json_file"]}
{"id": "C66", "title": "Entries that a run does not consult cannot change it", "statement": "Two configurations that agree on the listed entries give the same result or exception, the same log and the same output files. In particular extra sections and comments are harmless, and the path in melts_look-up_table, the path in crust_temperature_file and the value of crust_temperature_1 have no effect at all although the models demand that they be present.", "quantifier": "all pairs of configurations, file systems, initial logs and run lengths", "why_tests_cant": "independence relates all pairs of inputs; a test compares two", "anchors": ["pyflowgo/run_flowgo.py:run", "pyflowgo/flowgo_model_factory.py:FlowgoModelFactory", "pyflowgo/flowgo_crust_temperature_model_bimodal.py", "pyflowgo/flowgo_crust_temperature_model_field.py", "pyflowgo/flowgo_crystallization_rate_model_melts.py"]}
{"id": "C67", "title": "max_channel_length only cuts a run short", "statement": "Two runs that differ only in max_channel_length, L1 <= L2, do the same steps with the same states until the one with L1 ends; the rows it leaves (and the lines of its CSV) are an initial segment of the rows (lines) of the run with L2, and if the flow stopped before reaching L1 the two runs are identical. The first part holds for any arithmetic, so also for binary64.", "quantifier": "all simulations, all pairs of limits, all step sizes except 0, runs of any length", "why_tests_cant": "a relation between all pairs of runs of unbounded length", "anchors": ["pyflowgo/flowgo_integrator.py:single_step", "pyflowgo/flowgo_terrain_condition.py:read_initial_condition_from_json_file", "pyflowgo/run_flowgo.py:run"]}
{"id": "C68", "title": "What the result plots show, and when they can be produced", "statement": "plot_all_results draws, for each result file, one point per row except the first row (the vent is never drawn), with exactly the numbers of the table and 0 where an optional heat-flux column is absent, under a label made of the lava name and the effusion rate. A file can be drawn exactly when it has at least three rows, the effusion rate of the first row is a finite number and every row but the first has all the plotted columns and a Snyder flux column. So the pictures of a run can be made exactly when its heat budget has convection or Snyder, its table has at least three rows and no row is incomplete (last step not abandoned half-way); otherwise run-and-plot raises after writing the CSV. In a sweep one such run costs the pictures and the run-out table of all effusion rates, while every CSV stays on disk; when a sweep returns, every rate has its curve and its run-out line in order. The slope profile that is drawn has one point per line of the slope file but the first, in degrees; an unsmoothed simulation uses exactly those points steeper than 0.1 degree.", "quantifier": "all result tables and CSV files, all file systems, folders and lists of files, all accepted configurations and runs of any length, all sweeps", "why_tests_cant": "whether a run can be plotted depends on the selected heat fluxes, on where the flow stops and on which step was abandoned; tests plot one prepared file and cannot cover every configuration, stop position and combination of files", "anchors": ["pyflowgo/plot_flowgo_results.py:plot_all_results", "pyflowgo/run_flowgo_effusion_rate_array.py:run_flowgo_effusion_rate_array", "main_run_and_plot_flowgo_GUI.py:run_flowgo_single", "main_run_and_plot_flowgo.py", "pyflowgo/flowgo_flux_forced_convection_heat.py:compute_flux", "pyflowgo/flowgo_flux_snyder2002fig4_heat.py:compute_flux"]}
{"id": "C69", "title": "What the run and sweep buttons of the graphical interface report", "statement": "An error box means that nothing was run and no file changed. The success box of the sweep means the whole sweep was done (every rate run with the slope file of the configuration, drawn and given its run-out line), that of a single run that the result was written and the pictures made. The three entries are cut to integers (int(float(text))): fractions are dropped silently, so a step below 1 m3/s can never lead to success; it and an entry beyond the float range die on an uncaught exception with neither box, after having done nothing; text that is not a number gets the error box. A range that contains no rate is neither refused nor reported as a success: the table of run-outs is emptied and the sweep dies on an uncaught exception; so a success box means that at least one rate was run.", "quantifier": "all texts in the entry fields, all file systems and paths, all configurations and sweeps; the overflow case in binary64, the truncation bounds over the reals", "why_tests_cant": "ranges over all entry texts and all outcomes of runs of unbounded length", "anchors": ["main_run_and_plot_flowgo_GUI.py:run_flowgo_single", "main_run_and_plot_flowgo_GUI.py:run_flowgo_effusion"]}
{"id": "C70", "title": "A run writes to the logger but never reads it; running again replaces rows", "statement": "The values a run computes, the exception it may raise and the sequence of add_variable calls it makes do not depend on what the shared logger already holds. Hence rows of an earlier run at positions that are not visited again stay unchanged in front of the rows a fresh runner would produce, and run() called a second time on the same runner with the same configuration leaves exactly the same table and the same files.", "quantifier": "every configuration, file system, run length and every prior content of the logger", "why_tests_cant": "ranges over every prior content of the logger and every simulation; a test can only compare a few pairs of runs", "anchors": ["pyflowgo/run_flowgo.py:RunFlowgo.run", "pyflowgo/flowgo_logger.py:FlowGoLogger.add_variable", "pyflowgo/flowgo_integrator.py:FlowGoIntegrator.single_step"]}
{"id": "C71", "title": "The starting time matters only to crusts that cool with time", "statement": "With the crust temperature models constant and field, lava_state.time influences nothing: two configurations that differ only in that number give the same result or exception, the same table and the same files. (With hon, and with bimodal before the critical distance, the crust is cooler at a later time, so it does matter.)", "quantifier": "every pair of configurations differing only in lava_state.time, every file system, logger content and run length, in any arithmetic", "why_tests_cant": "a non-interference property over all configurations and all runs", "anchors": ["pyflowgo/flowgo_state.py:FlowGoState", "pyflowgo/flowgo_crust_temperature_model_constant.py", "pyflowgo/flowgo_crust_temperature_model_field.py", "pyflowgo/flowgo_crust_temperature_model_hon.py", "pyflowgo/flowgo_integrator.py:FlowGoIntegrator.single_step"]}
{"id": "C72", "title": "The result table satisfies the model's equations, row by row", "statement": "In the table of a run that ends normally, every row of a completed step satisfies, with the cells of that row: mean_velocity * channel_width * channel_depth = effusion_rate (or, when the mass flag is on, density times that product is one constant mass flux); heat_budget = -dtemp_dx * effusion_rate * density * latent heat * dphi_dtemp; dphi_dx = -dphi_dtemp * dtemp_dx; dtemp_dt = -dtemp_dx * velocity * 60; slope is the profile's slope at position; velocity is positive; and the flux columns add up to heat_budget. The first row holds the initial temperature and crystal fraction, each next row (and the final state) is the previous one plus the logged slopes times step_size, and the crystal fraction strictly grows. One effusion rate and one depth serve the whole table.", "quantifier": "every configuration, every length of run and every row", "why_tests_cant": "relates the cells of every row of every run; a test checks the rows of one configuration", "anchors": ["pyflowgo/flowgo_integrator.py:FlowGoIntegrator.single_step", "pyflowgo/flowgo_logger.py:FlowGoLogger"]}
{"id": "C73", "title": "Energy, crystals and travel time add up over the whole flow", "statement": "For a run that ends normally, summed over the rows of the completed steps: the final core temperature and crystal fraction are the initial ones plus the sum of dtemp_dx (dphi_dx) times step_size; the heat lost, sum of heat_budget * step_size / density, equals effusion_rate * latent heat * the growth of the crystal fraction (with constant density: sum of heat_budget * step_size = effusion_rate * density * latent heat * growth, and this is so for the constant vesicle model); and the elapsed model time is the sum of step_size / mean_velocity.", "quantifier": "every configuration and every number of steps", "why_tests_cant": "a conservation law over tables of every length and every choice of models", "anchors": ["pyflowgo/flowgo_integrator.py:FlowGoIntegrator.single_step", "pyflowgo/flowgo_heat_budget.py"]}
{"id": "C74", "title": "A channel k times as wide, fed k times as fast, is the same flow", "statement": "Multiplying effusion_rate_init and terrain_conditions.width by the same k > 0 changes nothing but proportions: the run ends in the same way (result or exception), after the same steps, with the same depth, positions, temperatures, crystal fractions, velocities and viscosities; channel_width, effusion_rate, heat_budget and every flux column are multiplied by exactly k, and spectral_radiance exceeds the background radiance by exactly k times as much. In particular the run-out length does not depend on the width at a fixed flow rate per metre of width.", "quantifier": "every k > 0, configuration, file system and run length (real arithmetic)", "why_tests_cant": "a symmetry of the whole model over all configurations and scale factors", "anchors": ["pyflowgo/flowgo_integrator.py:FlowGoIntegrator.init_effusion_rate", "pyflowgo/flowgo_integrator.py:FlowGoIntegrator.single_step", "pyflowgo/flowgo_heat_budget.py", "pyflowgo/flowgo_flux_radiation_heat.py", "pyflowgo/run_flowgo.py:RunFlowgo.run"]}
{"id": "C75", "title": "Each relative viscosity model evaluates its published formula, in every regime", "statement": "For physical crystal and vesicle fractions, er, kd, mp, mp_mueller, ptp1, ptp2, ptp3 and the four costa parameter sets return exactly the published expression; mader returns the Maron-Pierce value below half of the packing limit or for a flow index n of at least 0.9, otherwise that value times strain_rate^(n-1) with n = 1 - 0.2 r_p (phi/phi_max)^4 < 0.9 (strictly shear thinning; a non-positive strain rate raises ValueError); bll returns (1-phi/phi_max)^-Bsolid (1-vesicles)^-Bgas up to the critical packing and that value times strain_rate^(n-1) beyond, where n is kept in [0.2, 1.2], and n < 1, = 1, > 1 exactly when the capillary number is below, at, above 14/11; an all-gas lava gives an infinite viscosity.", "quantifier": "every state, every model parameter in its physical range", "why_tests_cant": "formulas over a continuum of states and parameters with regime boundaries", "anchors": ["pyflowgo/flowgo_relative_viscosity_model_bll.py:compute_relative_viscosity", "pyflowgo/flowgo_relative_viscosity_model_mader.py:compute_relative_viscosity", "pyflowgo/flowgo_relative_viscosity_model_costa1.py", "pyflowgo/flowgo_relative_viscosity_model_ptp2.py"]}
{"id": "C76", "title": "Every column of a result row can be recomputed from the row itself", "statement": "For a configuration the factory accepts whose rheology ignores the strain rate, every row of the table a run leaves is self-consistent: density is the dense-rock density times one minus vesicle_fraction; tho_b is depth*density*gravity*sin(slope); mean_velocity is the Jeffreys-Bingham velocity of depth, tho_0, tho_b and viscosity; strain_rate is 3v/h; effective_cover_fraction is f*exp(alpha*v); vesicle_fraction, viscosity, tho_0, crust_temperature, dphi_dtemp and slope are what the selected models give at the position, core_temperature and crystal_fraction of that row; every flux column is its closed-form law of those columns; effective_radiation_temperature, epsilon_effective, spectral_radiance (Planck's law at 0.8675 micrometre for crust, melt and snow over the pixel), characteristic_surface_temperature and effective_temperature_snyder likewise. spectral_radiance lies between the snow's and the lava's while the channel fits in the pixel; it exceeds that of a pixel full of lava as soon as the channel is wider than the pixel, which is 0.1 m in the two temperature-dependent emissivity models.", "quantifier": "every accepted configuration with a strain-rate-independent rheology, every initial state and depth, every run length, every row", "why_tests_cant": "each row mixes some twenty cells written by different models at different moments of a step; that the last write of each comes from the same state must hold for every step of every run", "anchors": ["pyflowgo/flowgo_integrator.py:single_step", "pyflowgo/flowgo_flux_radiation_heat.py:_compute_spectral_radiance", "pyflowgo/flowgo_flux_radiation_heat_emissivity_cont.py", "pyflowgo/flowgo_flux_forced_convection_heat.py", "pyflowgo/flowgo_logger.py:add_variable"]}
{"id": "C77", "title": "A run can be resumed from any row of its table", "statement": "Cut a run of a volume-flux set-up at any row of a completed step and start a new run with that row's position, core temperature and crystal fraction as initial state, its channel_depth and channel_width as the channel of the vent and effusion_rate_init 0: the new run ends normally, its table is exactly the remaining rows (the row itself included) and its final state is that of the original run. If the rheology does not depend on the strain rate and the crust temperature not on the time, this holds whatever initial strain rate and time are given. (In mass-flux mode it fails: with effusion_rate_init 0 the run raises AttributeError, C18.)", "quantifier": "every volume-flux configuration and models, every non-zero step, every run that ends normally, every row of a completed step, every initial strain rate and time (second part)", "why_tests_cant": "a test resumes one run at a few rows; that nothing else of the history of the run (counter, earlier rows, cached rates) influences the rest is a statement about every state a run can reach", "anchors": ["pyflowgo/flowgo_integrator.py:FlowGoIntegrator.single_step", "pyflowgo/flowgo_integrator.py:FlowGoIntegrator.initialize_state", "pyflowgo/flowgo_integrator.py:FlowGoIntegrator.init_effusion_rate", "pyflowgo/flowgo_logger.py:FlowGoLogger.add_variable"]}
{"id": "C78", "title": "The equations of the model hold in IEEE double precision up to rounding", "statement": "In a run in IEEE binary64, whatever exp, log, sin, pow and erf return, the numbers in the row of a completed step satisfy the equations of the model as real numbers up to a few units in the last place: mean_velocity*channel_width*channel_depth is the effusion rate with relative error at most 2^-51 (times density, the mass flux to 2^-50 in mass mode), and effusion_rate*density*latent_heat*dphi_dtemp*dtemp_dx is minus the heat budget with relative error at most 2^-50, provided those cells are finite and between about 1e-60 and 1e60 in magnitude. The next temperature and crystal fraction are the old ones plus the logged gradient times the step up to 2^-51 of the terms, so after n steps the temperature is the initial one plus the sum of the logged gradients times the step up to n*2^-50 times the largest temperature. If the initial position and the step are whole multiples of a power of two (whole metres, say), every position is exact until 2^53 multiples.", "quantifier": "every libm, every configuration and state of binary64 numbers, every step and every number of steps; the ranges stated", "why_tests_cant": "a test compares a few runs with a tolerance; a guaranteed bound on the rounding error of every row of every run needs an error analysis over all doubles", "anchors": ["pyflowgo/flowgo_integrator.py:FlowGoIntegrator.single_step", "pyflowgo/flowgo_integrator.py:FlowGoIntegrator._update_state"]}
{"id": "C79", "title": "Refining the step size changes the results by an amount proportional to it", "statement": "Run the same set-up from the same vent with step h and with step h/m. If the gradients dtemp_dx and dphi_dx shown by the rows vary by at most L per unit of position, temperature and crystal fraction between the rows of the two tables, and are at most B, then at every common position x0+n*h the temperatures and crystal fractions of the two tables differ by at most h*(1+B)*(exp(L*n*h)-1). For a configuration the factory accepts, with physical parameters, only heat losses and models without thresholds (basic crystallization and cover, no bimodal vesicles, no strain-rate rheology), there is one number C, the same for every step, such that at every common position the temperatures, crystal fractions and velocities of the tables for h and h/m differ by at most C*h as long as the lava flows at v0 or more below the packing limit: the step size of the configuration is a numerical parameter, not a physical one.", "quantifier": "every configuration, every step h>0, every integer refinement m, every pair of runs that end normally, every common row", "why_tests_cant": "a test compares two step sizes; convergence is a statement about all step sizes and all rows", "anchors": ["pyflowgo/flowgo_integrator.py:FlowGoIntegrator.single_step", "pyflowgo/flowgo_integrator.py:FlowGoIntegrator._update_state"]}
{"id": "C80", "title": "Milder conditions never stop the lava earlier", "statement": "Take two set-ups that differ only in the air, the heat fluxes and the latent heat of crystallization, run from the same vent with the same step. If the second loses, for every warm lava surface, no more heat per unit of latent heat than the first, then for every small enough step the second results table has every row the first has (as long as the lava of the first flows at v0 or more below the packing limit), and at each position core_temperature is at least as high, crystal_fraction at most as high and mean_velocity at least as high as in the first table. In particular this holds for hotter air, a smaller convection coefficient, a smaller emissivity, a warmer or more distant base, less rain, fluxes switched off and a larger latent heat, one by one or together.", "quantifier": "every pair of such configurations the factory accepts (physical parameters, only heat losses, models without thresholds), every small enough step, every pair of runs that end normally, every row", "why_tests_cant": "a test compares a few pairs of configurations; the ordering must hold for all parameters and at every row, although velocity, depth of crust cover and heat loss feed back on each other at every step", "anchors": ["pyflowgo/flowgo_integrator.py:FlowGoIntegrator.single_step", "pyflowgo/flowgo_flux_radiation_heat.py", "pyflowgo/flowgo_flux_conduction_heat.py", "pyflowgo/flowgo_flux_forced_convection_heat.py", "pyflowgo/flowgo_flux_heat_loss_rain.py"]}
{"id": "C81", "title": "A killed run, sweep or editor session leaves a known state and can be started again", "statement": "Kill a run at any moment: every file is as it was, except possibly its result file, which holds the complete table or a beginning of the table the run would have written; before the simulation is over nothing at all has been written. Started again, it ends as the first run would have and leaves the same files, provided its result file is none of its inputs. A killed sweep leaves, besides, at most the working configuration of one of its rates and finished result files of earlier rates, with at most one incomplete file, and can be started again if the template is not in the output folder; if it is, there is a moment at which a kill leaves the template empty and the sweep cannot be started again. The editor's save is not atomic: there is a moment at which a kill leaves the edited configuration empty.", "quantifier": "every configuration, every disk, every moment of the kill (every operation, every number of characters flushed), every later restart", "why_tests_cant": "the kill can come at any point of any run; a test tries a few points", "anchors": ["pyflowgo/run_flowgo.py:RunFlowgo.run", "pyflowgo/flowgo_logger.py:FlowGoLogger.write_values_to_file", "pyflowgo/run_flowgo_effusion_rate_array.py:run_flowgo_effusion_rate_array", "edit_json.py:save_changes"]}
{"id": "C82", "title": "Concurrent runs do not disturb each other unless they share an output path", "statement": "Several runs (or several sweeps) executed at the same time on the same disk, in any interleaving of their reads and writes: if no job writes a path that another reads or writes, every finished job has the outcome it has alone, its output files hold what they would hold, and no other file has changed. Two sweeps of the same template into the same folder share the working configuration: there is an interleaving in which a sweep reports success and names a result file that does not exist, because it ran the other sweep's rate.", "quantifier": "every number of jobs, every configuration, every interleaving, every disk", "why_tests_cant": "the interleavings of reads, partial writes and computations cannot be enumerated by tests", "anchors": ["pyflowgo/run_flowgo.py:RunFlowgo.run", "pyflowgo/run_flowgo_effusion_rate_array.py:run_flowgo_effusion_rate_array"]}
{"id": "C83", "title": "The channel downstream does not influence the flow upstream", "statement": "Two runs whose parameters and models agree at every position of the upstream stretch (but may differ anywhere beyond: slope, maximum length, crust, crystals, vesicles, viscosity, yield strength) produce tables that start with the same rows: every row in which the tables differ lies beyond the stretch, and if the first flow stops inside the stretch the two runs are equal. In particular two slope files that share their first lines give the same rows up to the last shared line, less the half window of the smoothing, which is the only way a downstream slope acts upstream.", "quantifier": "every pair of models or slope files, every upstream stretch, every initial state, every number of steps", "why_tests_cant": "it ranges over every possible continuation of the channel and every flow, a test fixes both", "anchors": ["pyflowgo/flowgo_integrator.py:FlowGoIntegrator.single_step", "pyflowgo/flowgo_terrain_condition.py:FlowGoTerrainCondition.read_slope_from_file", "pyflowgo/run_flowgo.py:RunFlowgo.run"]}
{"id": "C84", "title": "The text of the CSV files reads back as the table, and a file cut short gives a right beginning", "statement": "Whatever history of add_variable calls filled the logger, the file written by write_values_to_file, read with csv.DictReader and float() as the plots and the run-out table do, gives the names of the first row as header and one record per row, in order: every logged number is read back, a column a row has not is an empty text, any other name is a KeyError. The run-out file reads back likewise for every lava name, with commas, quotes or line feeds in it (a carriage return would become a line feed). Whatever beginning of a result file is on the disk (writer killed), reading it gives the first rows of the table unchanged, then at most one record of the next row: right up to one column, which is a beginning of its text, later columns missing (TypeError). So the cut column itself can be read as a wrong number without any error.", "quantifier": "all histories of logger calls whose numbers print so that float() reads them back, all simulations, all lava names, every cut point of the file", "why_tests_cant": "ranges over all tables, all field texts (quoting) and every byte at which a write can be interrupted", "anchors": ["pyflowgo/flowgo_logger.py:write_values_to_file", "pyflowgo/run_outs.py:get_run_outs", "pyflowgo/plot_flowgo_results.py:plot_all_results"]}
{"id": "C85", "title": "Settings for the part of the channel beyond the critical distance act only there", "statement": "Two configurations that differ only in critical_distance, vesicle_fraction_2, crystallization_rate_2, crust_temperature_2, alpha_2 or crust_cover_fraction_2 (any combination, any of the models selected; with crystallization model bimodal_f_temp, which switches at a temperature, the rate must agree) and start upstream of both critical distances write tables that begin with the same rows; every row in which the tables differ lies beyond the smaller critical distance, and if the first flow ends before it the logs and all files written are the same.", "quantifier": "every pair of configuration documents that agree on the other consulted entries, every file system, every number of steps", "why_tests_cant": "ranges over every combination of models and of far values; a test compares two fixed configurations", "anchors": ["pyflowgo/flowgo_vesicle_fraction_model_bimodal.py:computes_vesicle_fraction", "pyflowgo/flowgo_crystallization_rate_model_bimodal.py:compute_crystallization_rate", "pyflowgo/flowgo_crust_temperature_model_bimodal.py:compute_crust_temperature", "pyflowgo/flowgo_effective_cover_crust_model_bimodal.py:compute_effective_cover_fraction", "pyflowgo/run_flowgo.py:RunFlowgo.run"]}
{"id": "C86", "title": "A larger effusion rate, or a deeper channel, flows at least as far", "statement": "Take a configuration with physical parameters, heat losses only (radiation, conduction, convection, rain), a cover that does not grow with speed (alpha <= 0) and models without jumps, whose lava can move at the vent. Asking for a larger effusion_rate_init makes the depth search end at a channel at least as deep; and, for small enough steps, a run with a larger effusion rate (or, without search, a deeper channel) writes at least as many rows and shows, row by row, lava at least as hot, no more crystallised and at least as fast, as long as the first lava keeps moving below the packing limit. Radiation is with a constant or linear emissivity, with two emissivities when a constant crust temperature is below the molten one and the crust emits at least as well, or with the quadratic law when moreover the two temperatures add up to more than 2115.12 K.", "quantifier": "every such configuration, every pair of rates or depths, every step size below a bound, every number of rows", "why_tests_cant": "ranges over all configurations and step sizes, and over every row of two runs of any length", "anchors": ["pyflowgo/flowgo_integrator.py:FlowGoIntegrator.init_effusion_rate", "pyflowgo/flowgo_integrator.py:FlowGoIntegrator.single_step", "pyflowgo/flowgo_material_lava.py:FlowGoMaterialLava.compute_mean_velocity", "pyflowgo/flowgo_effective_cover_crust_model_basic.py:compute_effective_cover_fraction", "pyflowgo/flowgo_flux_radiation_heat.py:FlowGoFluxRadiationHeat.compute_flux"]}
{"id": "C87", "title": "A finer step does not stop the lava earlier, and the results converge", "statement": "Take a configuration with physical parameters, heat losses only and models without jumps, whose lava can move at the vent. For every small enough step h: wherever the run with step_size h still shows lava flowing at some speed v0 below the packing limit, a run with step_size h/m (any m) has a row for the same place too, and its temperature, crystal fraction and velocity there differ by at most C*h. As m grows these values converge to limits, and the run with step h/m is within C*h/m of them. (C79 compares two runs that both got that far; here the finer run is shown to get that far.)", "quantifier": "every such configuration, every step size below a bound, every refinement factor m, every row of the coarser run", "why_tests_cant": "ranges over all configurations, infinitely many step sizes and every row; convergence is a statement about a limit", "anchors": ["pyflowgo/flowgo_integrator.py:FlowGoIntegrator.single_step", "pyflowgo/run_flowgo.py:RunFlowgo.run", "pyflowgo/flowgo_material_lava.py:FlowGoMaterialLava.compute_mean_velocity"]}
{"id": "C88", "title": "Steeper ground or thinner lava flows at least as far", "statement": "Take two configurations that differ only in the ground (gravity, slope profile) or only in the rheology (melt viscosity, effect of crystals and bubbles, yield strength), with the channel depth given (effusion_rate_init 0), physical parameters, radiation, conduction, convection and rain as heat fluxes, and models without jumps. If gravity * sin(slope) is nowhere smaller in the second, and its viscosity and yield strength nowhere larger, then for every small enough step the second run writes at least every row the first one writes (while the first flows at some speed v0 below the packing limit), and row by row its lava is at least as hot, has at most as many crystals and is at least as fast. In particular: a slope profile file with the same distances and every slope at least as steep; a melt with a smaller VFT constant a. Radiation is with a constant or linear emissivity, with two emissivities when a constant crust temperature is below the molten one and the crust emits at least as well, or with the quadratic law when moreover the two temperatures add up to more than 2115.12 K.", "quantifier": "every such pair of configurations, every slope profile, every step size below a bound, every row", "why_tests_cant": "ranges over all pairs of configurations and slope profiles, infinitely many step sizes and all rows", "anchors": ["pyflowgo/flowgo_integrator.py:FlowGoIntegrator.single_step", "pyflowgo/flowgo_terrain_condition.py:FlowGoTerrainCondition.get_channel_slope", "pyflowgo/flowgo_material_lava.py:FlowGoMaterialLava.compute_mean_velocity", "pyflowgo/flowgo_melt_viscosity_model_vft.py", "pyflowgo/flowgo_yield_strength_model_basic.py:FlowGoYieldStrengthModelBasic.compute_basal_shear_stress"]}
{"id": "C89", "title": "Lava with fewer crystals at the vent flows at least as far", "statement": "Take one configuration with the basic crystallization model, the channel depth given (effusion_rate_init 0), physical parameters, radiation, conduction, convection and rain as heat fluxes, and models without jumps, and lower only the crystal fraction the lava has at the vent. For every small enough step the run with fewer crystals writes at least every row the first one writes (while that one flows at some speed v0 below the packing limit), and row by row its lava is at least as hot, has at most as many crystals and is at least as fast. The crystal fraction at the vent acts on a run only through the state it starts from. Radiation is with a constant or linear emissivity, with two emissivities when a constant crust temperature is below the molten one and the crust emits at least as well, or with the quadratic law when moreover the two temperatures add up to more than 2115.12 K.", "quantifier": "every such configuration, every smaller crystal fraction, every step size below a bound, every row", "why_tests_cant": "ranges over all configurations and crystal fractions, infinitely many step sizes and all rows", "anchors": ["pyflowgo/flowgo_integrator.py:FlowGoIntegrator.single_step", "pyflowgo/flowgo_crystallization_rate_model_basic.py:FlowGoCrystallizationRateModelBasic", "pyflowgo/flowgo_relative_viscosity_model_er.py", "pyflowgo/flowgo_yield_strength_model_basic.py:FlowGoYieldStrengthModelBasic.compute_yield_strength"]}
{"id": "C90", "title": "A small error in the lava's temperature or crystals at the vent stays small", "statement": "Take one configuration with the channel depth given (effusion_rate_init 0), physical parameters that only lose heat, and models without jumps. There is a constant, the same for every step size and every pair of vent states in a range, such that two runs that start with different core temperatures and crystal fractions show at every common row temperatures, crystal fractions and velocities that differ by at most that constant times the difference at the vent, as long as both flow at some speed v0 or more below the packing limit. Moreover for vent states within some eps0 of each other nothing need be supposed of the second run: wherever the first flows at v0 or more with at most phi1 crystals, the second has a row too, flows at v0/2 or more, and is as close.", "quantifier": "every such configuration, every pair of vent states in the range, every step size, every row", "why_tests_cant": "ranges over a continuum of vent states, all step sizes and all rows, with one constant for all of them", "anchors": ["pyflowgo/flowgo_integrator.py:FlowGoIntegrator.single_step", "pyflowgo/flowgo_state.py:FlowGoState", "pyflowgo/run_flowgo.py:RunFlowgo.run"]}
{"id": "C91", "title": "A small error in the heat-loss parameters stays small", "statement": "Take a configuration with physical parameters, heat losses only and models without jumps. There is a constant C such that for every second configuration whose emissivities, convection coefficient, conduction thickness, rain heat, air temperature and latent heat are within a fraction eps <= 1/2 of the first one's, and for every step size, the temperatures, crystal fractions and velocities of the two runs differ at the same row by at most C*eps, as long as both flow at some speed v0 below the packing limit. More generally the same holds whenever the heat lost per unit of latent heat is within a fraction eps on every surface warmer than the air. For eps below some eps0, and a vent where the lava moves, nothing need be supposed of the second run: wherever the first flows at v0 or more with at most phi1 crystals, the second writes a row too and flows at v0/2 or more, for every step size. C and eps0 depend neither on the step size nor on the second configuration.", "quantifier": "every such pair of configurations, every eps, every step size, every row", "why_tests_cant": "one constant for infinitely many configurations, step sizes and rows", "anchors": ["pyflowgo/flowgo_integrator.py:FlowGoIntegrator.single_step", "pyflowgo/flowgo_flux_radiation_heat.py:FlowGoFluxRadiationHeat.compute_flux", "pyflowgo/flowgo_flux_forced_convection_heat.py:FlowGoFluxForcedConvectionHeat.compute_flux", "pyflowgo/flowgo_flux_conduction_heat.py:FlowGoFluxConductionHeat.compute_flux", "pyflowgo/flowgo_material_air.py:FlowGoMaterialAir"]}
{"id": "C92", "title": "The editor takes exactly the JSON texts as values", "statement": "The text typed into a field of the JSON editor is stored as a value exactly if the whole text, up to surrounding blanks, is a JSON document by the grammar of RFC 8259 extended with NaN, Infinity and -Infinity; the value is then the one the grammar gives (escapes and surrogate pairs decoded, of equal keys the last value at the place of the first). Every other text (True, 1., 01, a trailing comma, a raw control character in a string) is stored as the text itself. No text has two meanings.", "quantifier": "every text, of any length and nesting", "why_tests_cant": "infinitely many texts; acceptance of a wrong text and refusal of a right one both matter", "anchors": ["edit_json.py:rebuild_dict", "edit_json.py:save_changes"]}
{"id": "C93", "title": "A configuration saved by the editor or a sweep reads back as what was written", "statement": "Reading the text that json.dump(..., indent=4) writes for a configuration gives exactly that configuration, whatever its nesting, its texts (any characters, escaped) and its numbers, provided repr of a float reads back as that float and no text has a high surrogate followed by a low one (such a pair reads back as one character, and the texts differ). Everything read from a UTF-8 file can be saved this way, and so can whatever the editor saves after any actions, if the texts in its window are Unicode; in particular the configuration a sweep writes (the template with lava name, slope file and rate replaced) is read by the run as exactly that. Two different configurations never give the same file. The saved file is ASCII, so the platform's default encoding does not matter.", "quantifier": "every JSON value, of any size and nesting, with any texts", "why_tests_cant": "infinitely many values; one text, key or nesting that reads back differently would silently change the next run", "anchors": ["edit_json.py:save_changes", "edit_json.py:save_as", "pyflowgo/run_flowgo_effusion_rate_array.py:RunFlowgoEffusionRateArray.make_new_json", "pyflowgo/run_flowgo_effusion_rate_array.py:RunFlowgoEffusionRateArray.run_flowgo_effusion_rate_array"]}
