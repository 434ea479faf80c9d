{"id": "C01", "title": "Reference attenuation is never negative", "statement": "Whenever lrprop(d, prop) returns, the reference attenuation prop['aref'] it leaves behind is not a negative number: over exact reals it is >= 0, and in IEEE arithmetic the test aref < 0 is false (it can only be a non-negative number or NaN).", "quantifier": "every distance d, every prop dictionary, both modes, every arithmetic in which 0 < 0 is false (exact reals and binary64 with any libm)", "why_tests_cant": "the raw attenuation expression goes negative on parts of an infinite input space; tests sample three dictionaries", "anchors": ["src/itmlogic/lrprop.py:lrprop"]}
{"id": "C02", "title": "Error indicator kwx only ever gets worse and stays in 0..4", "statement": "In any sequence of lrprop, avar, qlra and qlrpfl calls on the same prop, with the caller free to edit any other entry in between, kwx never decreases as long as it starts at 4 or below; if it starts in 0..4 it stays in 0..4, and once it is 4 it stays 4.", "quantifier": "every finite sequence of API calls, with every argument and every intermediate edit of entries other than kwx", "why_tests_cant": "a property of unbounded call histories", "anchors": ["src/itmlogic/lrprop.py:lrprop", "src/itmlogic/statistics/avar.py:avar", "src/itmlogic/preparatory_subroutines/qlrpfl.py:qlrpfl", "src/itmlogic/preparatory_subroutines/qlra.py:qlra"]}
{"id": "C03", "title": "kwx reports exactly the worst documented out-of-range condition", "statement": "A set-up call of lrprop (mdp != 0) returns kwx = max(previous kwx, worst code among the range checks: 1 for wn outside 0.838..210, antenna height outside 1..1000 m, dist > 1000 km; 3 for a terminal with |the|>0.2, dl<0.1*dls or dl>3*dls, or dist<dmin; 4 for ens outside 250..400, gme outside 75e-9..250e-9, Re zgnd < |Im zgnd|, wn outside 0.419..420, antenna height outside 0.5..3000, dist outside 1..2000 km), each per-terminal check using that terminal's own values.", "quantifier": "every prop dictionary and distance, every combination of violated checks", "why_tests_cant": "2^13 combinations of violated checks over real-valued parameters; tests check two values of kwx", "anchors": ["src/itmlogic/lrprop.py:lrprop"]}
{"id": "C04", "title": "Mode protocol of lrprop", "statement": "With mdp = -1 lrprop ignores its distance argument, keeps mdp = -1 and leaves prop['dist'] untouched; with mdp = 1 or 0 it stores d in prop['dist'] and leaves mdp = 0; in the continuing mode (mdp = 0) the secondary parameters dls, dlsa, dla, tha, dmin, xae, emd, aed, wis and all inputs are left exactly as they were.", "quantifier": "every prop dictionary and distance, any arithmetic", "why_tests_cant": "the frame condition ranges over every entry of the dictionary and every input", "anchors": ["src/itmlogic/lrprop.py:lrprop"]}
{"id": "C05", "title": "Area mode: the result for a distance does not depend on the distances asked before", "statement": "After qlra/mdp=1, for every sequence of lrprop calls at distances d1..dn, aref after the last call equals aref of a first call made directly at dn.", "quantifier": "every sequence of distances (any length, any order), every prop dictionary", "why_tests_cant": "quantifies over unbounded call histories; the repo's area test asserts only the first and the last distance of one sweep", "anchors": ["src/itmlogic/lrprop.py:lrprop", "scripts/area.py:itmlogic_area"]}
{"id": "C06", "title": "Reference attenuation is continuous at the smooth-earth horizon distance", "statement": "With the same secondary parameters, the line-of-sight curve ael + ak1*d + ak2*log(d) evaluated at d = dlsa equals the diffraction line aed + emd*d at d = dlsa, for every branch by which the line-of-sight coefficients were chosen.", "quantifier": "every prop dictionary on which the line-of-sight set-up completes", "why_tests_cant": "equality of two real functions at an input-dependent point, over every branch of the coefficient selection", "anchors": ["src/itmlogic/lrprop.py:lrprop"]}
{"id": "C07", "title": "Reference attenuation is continuous at the diffraction/scatter cross-over", "statement": "After the scatter set-up the scatter line aes + ems*d and the diffraction line aed + emd*d agree at d = dx, and dx is never less than the smooth-earth horizon distance dlsa when scatter is admissible, so the three regimes are ordered and aref over d >= dlsa has no jump.", "quantifier": "every prop dictionary on which the scatter set-up completes", "why_tests_cant": "equality at an input-dependent point", "anchors": ["src/itmlogic/lrprop.py:lrprop"]}
{"id": "C08", "title": "Line-of-sight coefficients are sane", "statement": "Whenever lrprop chooses line-of-sight coefficients, ak2 >= 0, and either ak1 >= 0 or ak1 = emd; hence if emd >= 0 the line-of-sight attenuation is non-decreasing in distance. When the unconstrained log fit is admissible the curve passes exactly through the three computed points (d0,a0), (d1,a1), (dlsa,a2).", "quantifier": "every prop dictionary on which the set-up completes, every pair of distances", "why_tests_cant": "universally quantified inequality over a branching fit", "anchors": ["src/itmlogic/lrprop.py:lrprop"]}
{"id": "C09", "title": "Reciprocity of lrprop", "statement": "Exchanging the two terminals (hg, he, dl, the swapped) leaves the reference attenuation and all symmetric secondary parameters returned by lrprop unchanged (exact arithmetic).", "quantifier": "every prop dictionary and every distance, both modes", "why_tests_cant": "relational property of two runs over all inputs", "anchors": ["src/itmlogic/lrprop.py:lrprop", "src/itmlogic/diffraction_attenuation/adiff.py:adiff", "src/itmlogic/los_attenuation/alos.py:alos", "src/itmlogic/scatter_attenuation/ascat.py:ascat"]}
{"id": "C10", "title": "Reciprocity of the error indicator", "statement": "Exchanging the two terminals leaves kwx unchanged.", "quantifier": "every prop dictionary and every distance", "why_tests_cant": "relational property over all inputs", "anchors": ["src/itmlogic/lrprop.py:lrprop"]}
{"id": "C11", "title": "Diffraction attenuation is a convex combination", "statement": "For d != 0 adiff returns wd*ar + (1-wd)*ak + afo with 0 < wd <= 1, where ak is the double knife-edge attenuation and ar the rounded-earth attenuation; so it lies between the two (plus the clutter term afo), ak >= 12.04 dB, and it does not modify prop.", "quantifier": "every d and every prop on which the call returns", "why_tests_cant": "inequality over all inputs plus frame condition", "anchors": ["src/itmlogic/diffraction_attenuation/adiff.py:adiff", "src/itmlogic/diffraction_attenuation/aknfe.py:aknfe"]}
{"id": "C12", "title": "Knife-edge attenuation is a proper attenuation curve", "statement": "aknfe(v2) >= 6.02 dB for every v2, it is increasing in v2 on (0,5.76) and on [5.76,inf), constant for v2 <= 0, and the step at 5.76 is below 0.02 dB; globally it should be non-decreasing in v2.", "quantifier": "every real v2", "why_tests_cant": "monotonicity and bounds over the reals", "anchors": ["src/itmlogic/diffraction_attenuation/aknfe.py:aknfe"]}
{"id": "C13", "title": "Height-gain function fht joins its branches", "statement": "The branches of fht meet within a fixed small tolerance at x = 2000, for x >= 2000 it is increasing in x, and in the blended range 200 <= x < 2000 the result lies between the two asymptotic formulas (the blending weight is in [0,1]).", "quantifier": "every x, pk > 0", "why_tests_cant": "real-valued inequalities", "anchors": ["src/itmlogic/diffraction_attenuation/fht.py:fht"]}
{"id": "C14", "title": "Scatter distance function ahd joins its branches", "statement": "ahd's three formulas agree within 0.01 dB at 10 km and within 0.35 dB at 70 km; in each of its ranges the value is given by the row of coefficients for that range; beyond 70 km it is strictly increasing.", "quantifier": "every td > 0", "why_tests_cant": "universally quantified real inequality", "anchors": ["src/itmlogic/scatter_attenuation/ahd.py:ahd"]}
{"id": "C15", "title": "Frequency gain function h0f is non-negative, monotone and continuous", "statement": "For r > 0, h0f(r, et) >= 0, is strictly decreasing in r, non-decreasing in et, clamps et to the table range 1..5 (for every et, never an IndexError) and is continuous in et.", "quantifier": "every r > 0 and every real et", "why_tests_cant": "monotonicity/continuity over the reals", "anchors": ["src/itmlogic/scatter_attenuation/h0f.py:h0f"]}
{"id": "C16", "title": "Inadmissible scatter geometry is rejected", "statement": "When both r1 and r2 are below 0.2 the scatter attenuation is declared inadmissible: ascat reports the marker 1001 so that lrprop keeps the diffraction line beyond the horizon.", "quantifier": "every prop and d with r1, r2 < 0.2", "why_tests_cant": "a rejection rule over all inputs", "anchors": ["src/itmlogic/scatter_attenuation/ascat.py:ascat", "src/itmlogic/lrprop.py:lrprop"]}
{"id": "C17", "title": "Line-of-sight attenuation blends between two fields", "statement": "alos(d, prop) = wis*A + (1-wis)*(emd*d+aed) with A the two-ray field in dB; it does not modify prop, is symmetric in the two effective heights, and A >= -4.343*ln 4 (two unit fields can add by at most 6.02 dB) whenever |r| <= 1.", "quantifier": "every d > 0 and every prop", "why_tests_cant": "inequalities and symmetry over all inputs", "anchors": ["src/itmlogic/los_attenuation/alos.py:alos"]}
{"id": "C18", "title": "Climate curve is bounded and vanishes at zero distance", "statement": "curv(...,0) = 0, |curv| <= |c1| + |c2| for c2>=0, curv has a non-negative value when c1, c2 >= 0, and tends to c1 as de grows.", "quantifier": "every real argument with non-zero x1, x3", "why_tests_cant": "real inequalities and limits", "anchors": ["src/itmlogic/statistics/curv.py:curv"]}
{"id": "C19", "title": "avar quantile calls are independent of history", "statement": "After a call of avar, any further sequence of avar calls (other quantiles) leaves every cached entry unchanged (only kwx may grow) and each call returns the value it would have returned had it been made first.", "quantifier": "every finite sequence of quantile triples, every prop dictionary, any arithmetic", "why_tests_cant": "unbounded call histories", "anchors": ["src/itmlogic/statistics/avar.py:avar"]}
{"id": "C20", "title": "Incremental recomputation equals full recomputation", "statement": "If the caches are consistent and only dist (and aref) changed, avar with lvar = 1 returns the same value and the same caches as with lvar = 5; likewise lvar = 2 when he changed, 3 when wn changed, 4 when mdvar changed.", "quantifier": "every prop dictionary with consistent caches, every change of the listed inputs, any arithmetic", "why_tests_cant": "relational property over all states", "anchors": ["src/itmlogic/statistics/avar.py:avar"]}
{"id": "C21", "title": "Variability mode code is decoded as documented", "statement": "mdvar = m + 10*pp + 20*interf with m in 0..3 decodes to kdv = m, wl = pp, ws = interf; any other code gives kdv = 0 and kwx >= 2; wl removes location variability (sgl = 0), ws removes situation variability (vs0 = 0).", "quantifier": "every integer mdvar, every prop", "why_tests_cant": "infinite domain of codes", "anchors": ["src/itmlogic/statistics/avar.py:avar"]}
{"id": "C22", "title": "Climate code selects exactly one table row, invalid codes fall back to 5", "statement": "With lvar = 5, avar uses the row of the requested climate for klim in 1..7; for every other integer klim is replaced by 5, kwx is raised to at least 2; no climate code can raise an IndexError.", "quantifier": "every integer klim", "why_tests_cant": "infinite domain; negative indices are legal in Python lists", "anchors": ["src/itmlogic/statistics/avar.py:avar"]}
{"id": "C23", "title": "Higher confidence never predicts less loss", "statement": "For fixed prop and fixed zzt, zzl, the value returned by avar is non-increasing in zzc (i.e. non-decreasing in the confidence level), in every variability mode.", "quantifier": "every prop reachable from a full set-up, every pair of deviates, every mode", "why_tests_cant": "monotonicity of a nonlinear function with branches", "anchors": ["src/itmlogic/statistics/avar.py:avar"]}
{"id": "C24", "title": "Higher reliability never predicts less loss", "statement": "In the accidental, mobile and broadcast modes avar is non-increasing in zzt for fixed other arguments.", "quantifier": "every prop reachable from a full set-up, every pair of deviates", "why_tests_cant": "monotonicity of a nonlinear function with branches", "anchors": ["src/itmlogic/statistics/avar.py:avar"]}
{"id": "C25", "title": "Modes ignore the quantiles they do not use", "statement": "In single-message mode avar ignores zzt and zzl; in accidental and mobile mode it ignores zzl; in broadcast mode all three matter.", "quantifier": "every prop and every triple of deviates, any arithmetic", "why_tests_cant": "non-interference over all inputs", "anchors": ["src/itmlogic/statistics/avar.py:avar"]}
{"id": "C26", "title": "Negative attenuations are compressed, never flipped", "statement": "The value returned by avar has the sign of the raw quantile attenuation, equals it when non-negative, is strictly monotone in it, and when negative lies strictly between it and zero.", "quantifier": "every raw value", "why_tests_cant": "real inequality", "anchors": ["src/itmlogic/statistics/avar.py:avar"]}
{"id": "C27", "title": "avar never fails on a well-formed dictionary", "statement": "If all documented entries are present with dexa/wn positive, he >= 0, dh >= 0, dist >= 0, avar returns a value (no exception, no domain error), sets lvar = 0, and changes only its own cache entries, klim, kwx and lvar.", "quantifier": "every well-formed prop, every lvar, every triple of deviates", "why_tests_cant": "totality over all inputs", "anchors": ["src/itmlogic/statistics/avar.py:avar"]}
{"id": "C28", "title": "Horizon angles are the true maximum take-off angles", "statement": "hzns returns, for each terminal, the largest take-off angle over all interior profile points and the far antenna, taking earth curvature into account; on an unobstructed path both horizon distances equal the path length.", "quantifier": "every profile (any number of points, any heights), antenna heights and curvature", "why_tests_cant": "maximum over an unbounded list; the second terminal is only scanned after the first obstruction", "anchors": ["src/itmlogic/preparatory_subroutines/hzns.py:hzns"]}
{"id": "C29", "title": "Horizon distance points at the horizon", "statement": "The horizon distance returned by hzns for each terminal is the distance of a profile point (or of the far terminal) at which the maximum take-off angle is attained; it lies in (0, dist].", "quantifier": "every profile", "why_tests_cant": "unbounded list", "anchors": ["src/itmlogic/preparatory_subroutines/hzns.py:hzns"]}
{"id": "C30", "title": "Horizon search is reciprocal", "statement": "Running hzns on the reversed profile with the antenna heights swapped returns the take-off angles swapped.", "quantifier": "every profile", "why_tests_cant": "relational property over unbounded lists", "anchors": ["src/itmlogic/preparatory_subroutines/hzns.py:hzns"]}
{"id": "C31", "title": "zlsq1 is the least-squares line", "statement": "zlsq1 returns the values at both ends of the profile of the straight line that minimises the sum of squared residuals over the samples between x1 and x2 (end samples weighted one half).", "quantifier": "every profile and window with at least one interval inside the path", "why_tests_cant": "optimality against all lines, unbounded lists", "anchors": ["src/itmlogic/preparatory_subroutines/zlsq1.py:zlsq1"]}
{"id": "C32", "title": "zlsq1 reproduces straight terrain and commutes with adding a line", "statement": "On a profile that is a straight line zlsq1 returns its end heights; adding a straight line to any profile adds that line's end heights to the result.", "quantifier": "every profile, window, line", "why_tests_cant": "unbounded lists", "anchors": ["src/itmlogic/preparatory_subroutines/zlsq1.py:zlsq1"]}
{"id": "C33", "title": "zlsq1 is total on every window", "statement": "For every window inside the path zlsq1 returns a result and never reads outside the profile samples; a degenerate window (x2 <= x1) is widened by one sample on both sides.", "quantifier": "every profile, every x1 and x2", "why_tests_cant": "index safety over all windows; Python accepts negative indices silently", "anchors": ["src/itmlogic/preparatory_subroutines/zlsq1.py:zlsq1"]}
{"id": "C34", "title": "Terrain irregularity is a non-negative spread", "statement": "dlthx returns a value >= 0, returns 0 for windows shorter than two sample spacings and for straight terrain, is unchanged when a straight line is added to the terrain, and scales with a non-negative vertical scale factor.", "quantifier": "every profile and window x1 < x2 within the path", "why_tests_cant": "unbounded lists; sorting", "anchors": ["src/itmlogic/preparatory_subroutines/dlthx.py:dlthx", "src/itmlogic/misc/qtile.py:qtile"]}
{"id": "C35", "title": "dlthx resamples by linear interpolation and terminates without index errors", "statement": "For a window inside the path dlthx terminates, never reads outside the terrain samples, and every resampled height is the linear interpolation of the terrain at the resampling position.", "quantifier": "every profile and window inside the path", "why_tests_cant": "loop invariant over unbounded profiles", "anchors": ["src/itmlogic/preparatory_subroutines/dlthx.py:dlthx"]}
{"id": "C36", "title": "qtile is the order statistic", "statement": "qtile(a, ir) is an element of a such that at most ir elements are larger and at least ir+1 elements are at least as large; it depends only on the multiset of a, is non-increasing in ir, and fails exactly when ir is outside -len(a)..len(a)-1.", "quantifier": "every list and every index", "why_tests_cant": "all lists, all permutations", "anchors": ["src/itmlogic/misc/qtile.py:qtile"]}
{"id": "C37", "title": "qerf is a complementary distribution function", "statement": "0 <= qerf(z) <= 1, qerf(-z) = 1 - qerf(z) for z != 0, qerf is non-increasing, and it is exactly 0 / 1 for |z| >= 10.", "quantifier": "every real z", "why_tests_cant": "real inequalities", "anchors": ["src/itmlogic/misc/qerf.py:qerf"]}
{"id": "C38", "title": "qerf accuracy", "statement": "|qerf(z) - Q(z)| <= 7.5e-8 for every z, where Q is the standard normal complementary probability.", "quantifier": "every real z", "why_tests_cant": "uniform error bound over the reals", "anchors": ["src/itmlogic/misc/qerf.py:qerf"]}
{"id": "C39", "title": "qerfi is an order-reversing odd inverse", "statement": "qerfi returns one deviate per requested level, in order; qerfi(1-q) = -qerfi(q); it is non-increasing in q; levels at or beyond 1e-6 and 1-1e-6 saturate at +-qerfi(1e-6); it never fails for any real level; qerfi(0.5) = 0.", "quantifier": "every list of levels, every real q", "why_tests_cant": "all lists, real inequalities", "anchors": ["src/itmlogic/misc/qerfi.py:qerfi"]}
{"id": "C40", "title": "qerfi accuracy", "statement": "|qerfi(q) - Q^-1(q)| <= 4.5e-4 (+ 0.5e-4 rounding) for 1e-6 <= q <= 1-1e-6.", "quantifier": "every real q in range", "why_tests_cant": "uniform error bound", "anchors": ["src/itmlogic/misc/qerfi.py:qerfi"]}
{"id": "C41", "title": "Area-mode effective heights, horizon distances and angles", "statement": "qlra sets he = hg for random siting, he >= hg for careful siting and more for very careful siting; 0 < dl <= sqrt(2 he/gme) with equality when dh = 0; take-off angle formula; never fails for hg, gme > 0, dh >= 0.", "quantifier": "every hg, dh, gme and siting codes", "why_tests_cant": "real inequalities, every integer code", "anchors": ["src/itmlogic/preparatory_subroutines/qlra.py:qlra"]}
{"id": "C42", "title": "Preparation raises lvar enough for avar", "statement": "After qlra or qlrpfl, lvar >= 3; >= 4 when a variability mode was given; = 5 when a climate was given; mdvar/klim are overwritten exactly in those cases; qlra leaves mdp = 1 and qlrpfl leaves mdp = -1; entries not listed are untouched.", "quantifier": "every prop", "why_tests_cant": "frame conditions over all inputs", "anchors": ["src/itmlogic/preparatory_subroutines/qlra.py:qlra", "src/itmlogic/preparatory_subroutines/qlrpfl.py:qlrpfl"]}
{"id": "C43", "title": "Point-to-point effective heights", "statement": "qlrpfl's effective heights are never below the structural heights and are measured from each terminal's own ground elevation; on a line-of-sight profile the adjusted horizon distances cover the path (dl0 + dl1 >= dist).", "quantifier": "every profile and antenna heights", "why_tests_cant": "unbounded profiles, real inequalities", "anchors": ["src/itmlogic/preparatory_subroutines/qlrpfl.py:qlrpfl"]}
{"id": "C44", "title": "Re-running qlrpfl on a used dictionary gives the fresh answer", "statement": "qlrpfl's results (all entries except kwx/lvar history) depend only on the entries documented as inputs, so calling it again on the returned dictionary, or on one polluted by earlier calls, gives the same outputs.", "quantifier": "every pair of dictionaries agreeing on the inputs, any arithmetic", "why_tests_cant": "non-interference over all states", "anchors": ["src/itmlogic/preparatory_subroutines/qlrpfl.py:qlrpfl", "src/itmlogic/lrprop.py:lrprop", "scripts/pimter.py:run_itmlogic"]}
{"id": "C45", "title": "qlrps computes a physical ground impedance and curvature", "statement": "wn = fmhz/47.7; ens = en0*exp(-zsys/9460) and is decreasing in elevation; gme < 157e-9 and positive for ens < 549; zgnd is the principal square root of zq - 1 (divided by zq for vertical polarisation), so zgnd^2 (times zq^2) = zq - 1 and Re zgnd >= 0 for horizontal polarisation.", "quantifier": "every input", "why_tests_cant": "identities over the complex numbers", "anchors": ["src/itmlogic/preparatory_subroutines/qlrps.py:qlrps"]}
{"id": "C46", "title": "Point-to-point script output", "statement": "itmlogic_p2p returns one row for every reliability/confidence pair in reliability-major order, every row's loss is the same free-space loss plus that pair's variability, rows of equal reliability are ordered by confidence, rows of equal confidence by reliability.", "quantifier": "every parameter set and every surface profile on which it returns", "why_tests_cant": "all profiles; composition of all modules", "anchors": ["scripts/p2p.py:itmlogic_p2p"]}
{"id": "C47", "title": "Area script distance grid", "statement": "itmlogic_area evaluates D0, D0+DS1, ... up to a last point within a quarter step below and three quarters of a step above D1, then continues by DS2 up to D2 in the same sense; the grid is strictly increasing and has ND points; it works for every choice of grid parameters.", "quantifier": "every choice of grid parameters", "why_tests_cant": "unbounded parameter space", "anchors": ["scripts/area.py:itmlogic_area"]}
{"id": "C48", "title": "Number of terrain samples", "statement": "determine_num_samples(d) lies in 2..600 for every d >= 0, equals 2 at d = 0, is non-decreasing in d, and reaches 600.", "quantifier": "every non-negative distance", "why_tests_cant": "real inequality + rounding", "anchors": ["scripts/terrain_module.py:determine_num_samples"]}
{"id": "C49", "title": "Sampled profile spans transmitter to receiver", "statement": "terrain_p2p samples the path at equally spaced positions starting at the transmitter and ending at the receiver.", "quantifier": "every path length and number of samples", "why_tests_cant": "all lengths", "anchors": ["scripts/terrain_module.py:terrain_p2p"]}
{"id": "C50", "title": "Interdecile range", "statement": "interdecile_range is a non-negative integer, unchanged by adding a constant to all elevations or permuting them, and 0 for constant terrain.", "quantifier": "every non-empty list of elevations", "why_tests_cant": "all lists", "anchors": ["scripts/terrain_module.py:interdecile_range"]}
{"id": "C51", "title": "Area and point-to-point scripts use the same ground impedance", "statement": "For the same eps, sgm, frequency and polarisation, the ground impedance computed inline by itmlogic_area equals that of qlrps / itmlogic_p2p.", "quantifier": "every eps, sgm, fmhz, ipol", "why_tests_cant": "relational, real-valued", "anchors": ["scripts/area.py:itmlogic_area", "scripts/p2p.py:itmlogic_p2p", "src/itmlogic/preparatory_subroutines/qlrps.py:qlrps"]}
{"id": "C52", "title": "Reported dominant mode matches the formula used", "statement": "itmlogic_p2p reports 'Diffraction is the dominant mode' only when aref came from the diffraction line and 'Tropospheric scatter' only when it came from the scatter line; the report never fails with a missing entry.", "quantifier": "every run", "why_tests_cant": "all inputs", "anchors": ["scripts/p2p.py:itmlogic_p2p", "src/itmlogic/lrprop.py:lrprop"]}
{"id": "C53", "title": "Quantile levels in pimter.py are the requested medians", "statement": "run_itmlogic evaluates avar at the deviates of the requested 50% levels.", "quantifier": "all runs", "why_tests_cant": "argument scaling error invisible without an oracle", "anchors": ["scripts/pimter.py:run_itmlogic", "src/itmlogic/misc/qerfi.py:qerfi"]}
{"id": "C54", "title": "Line-of-sight report matches the terrain", "statement": "itmlogic_p2p reports 'Line of sight path' only for paths whose terrain horizons reach the other terminal.", "quantifier": "every profile and every pair of terminals", "why_tests_cant": "printed output is not asserted; all profiles", "anchors": ["scripts/p2p.py:itmlogic_p2p", "src/itmlogic/preparatory_subroutines/qlrpfl.py:qlrpfl"]}
{"id": "C55", "title": "Variability statistics are the published functions of the path", "statement": "After any avar call that refreshes the statistics, each cached statistic (median correction, time standard deviations below/above/far, situation and location deviations, frequency factors) equals the published reference formula evaluated at the dictionary's own climate row, heights, wave number, terrain irregularity and effective distance; the effective distance itself equals its published formula of dist, he, wn.", "quantifier": "all prop dictionaries, climates, modes, deviates; every refresh level", "why_tests_cant": "unit tests compare a handful of outputs; the intermediate statistics cover all climates and distances", "anchors": ["src/itmlogic/statistics/avar.py:avar"]}
{"id": "C56", "title": "Derived path parameters are the reference formulas of the inputs", "statement": "After any sequence of lrprop calls starting with mdp != 0, the stored horizon distances, bending angle, diffraction weights, clutter factor (always between 0 and 15 dB), three-radii parameters, and diffraction line are the reference formulas of the caller's entries; the diffraction line passes through adiff at the two prescribed distances; the caller's entries are unchanged.", "quantifier": "all dictionaries and all sequences of distances for which the calls return, over exact reals", "why_tests_cant": "all inputs; tests fix one or two dictionaries and round to few digits", "anchors": ["src/itmlogic/lrprop.py:lrprop", "src/itmlogic/diffraction_attenuation/adiff.py:adiff", "src/itmlogic/diffraction_attenuation/fht.py:fht"]}
{"id": "C57", "title": "Scatter line is the reference troposcatter fit", "statement": "Whenever the scatter branch has been computed, slope ems, intercept aes and crossover dx are those obtained from the reference scatter attenuation at 200 km and 400 km beyond the horizons, including the frequency gain carried over from the far distance to the near one.", "quantifier": "all dictionaries and all sequences of distances, over exact reals", "why_tests_cant": "order-dependent state (h0s) shared between two calls; all inputs", "anchors": ["src/itmlogic/lrprop.py:lrprop", "src/itmlogic/scatter_attenuation/ascat.py:ascat", "src/itmlogic/scatter_attenuation/h0f.py:h0f", "src/itmlogic/scatter_attenuation/ahd.py:ahd"]}
{"id": "C58", "title": "Line-of-sight coefficients are the reference fit", "statement": "Whenever the line-of-sight branch has been computed, ael, ak1, ak2 are those of the reference fit: three-point logarithmic fit, two-point fit with one coefficient forced to zero, or straight line, each exactly under its stated condition.", "quantifier": "all dictionaries and all sequences of distances, over exact reals", "why_tests_cant": "several branches, each on a set of inputs tests do not reach", "anchors": ["src/itmlogic/lrprop.py:lrprop", "src/itmlogic/los_attenuation/alos.py:alos"]}
{"id": "C59", "title": "The documented entries are all it takes", "statement": "With the caller's entries in the dictionary (area mode: hg, dh, wn, ens, gme, zgnd and the control entries; path mode: hg, wn, ens, gme, zgnd, pfl and the control entries) no routine ends in KeyError, TypeError or UnboundLocalError, whatever the values: the first qlra or qlrpfl call, the first lrprop call, and, after a first success, every lrprop, avar, qlra and qlrpfl call in any order with arbitrary edits of values in between. The same for the scripts itmlogic_area, itmlogic_p2p and run_itmlogic given their few input keys. Only errors caused by the numbers (division by zero, domain, overflow) remain, and an index error if the profile is inconsistent.", "quantifier": "all dictionaries holding the entries, all values, all sequences of calls and edits; first calls in any arithmetic whose numbers compare (no NaN), later calls in any arithmetic", "why_tests_cant": "every entry is written in one branch of one routine and read in another; a missing one shows only on the path that skips the writer", "anchors": ["src/itmlogic/lrprop.py:lrprop", "src/itmlogic/statistics/avar.py:avar", "src/itmlogic/preparatory_subroutines/qlra.py:qlra", "src/itmlogic/preparatory_subroutines/qlrpfl.py:qlrpfl", "scripts/p2p.py:itmlogic_p2p", "scripts/area.py:itmlogic_area"]}
{"id": "C60", "title": "lrprop is defined on physical inputs", "statement": "With positive wave number, curvature, heights and horizon distances, non-negative irregularity and a ground impedance with positive real part that is not too small for the three radii, lrprop returns a value for every distance (area mode: every sequence of distances) unless one of a few named coincidences occurs: a sample point of the line-of-sight fit equal to dlsa, a ground that absorbs the reflected ray completely there, a horizontal diffraction line starting below zero, a scatter line parallel to the diffraction line. In area mode with everyday inputs (from 40 MHz, antennas 0.5 m to 3 km, irregularity up to 500 m, |z| at least 1/50) qlra and the set-up never fail. adiff and alos are defined exactly where the argument of the logarithm is positive and where the ground reflects.", "quantifier": "all dictionaries with the stated signs, all sequences of distances, over exact reals; the two failures in binary64 by concrete runs", "why_tests_cant": "absence of division by zero and of logarithms of non-positive numbers over a continuous domain", "anchors": ["src/itmlogic/lrprop.py:lrprop", "src/itmlogic/diffraction_attenuation/adiff.py:adiff", "src/itmlogic/los_attenuation/alos.py:alos", "src/itmlogic/scatter_attenuation/ascat.py:ascat", "src/itmlogic/preparatory_subroutines/qlra.py:qlra"]}
{"id": "C61", "title": "A link gives the same losses from both ends", "statement": "Exchanging the two ends of a link (antenna heights, siting codes and, for a terrain path, the direction of the profile) changes neither the reference attenuation nor any secondary parameter, quantile or line of the tables printed by area.py and p2p.py.", "quantifier": "all dictionaries, all terrain profiles of any length, all levels and distances, over exact reals; the failures in binary64 by concrete runs", "why_tests_cant": "relates two whole runs on arbitrary terrain; a test can only compare a few profiles", "anchors": ["src/itmlogic/preparatory_subroutines/qlrpfl.py:qlrpfl", "src/itmlogic/preparatory_subroutines/qlra.py:qlra", "src/itmlogic/preparatory_subroutines/hzns.py:hzns", "src/itmlogic/preparatory_subroutines/dlthx.py:dlthx", "src/itmlogic/preparatory_subroutines/zlsq1.py:zlsq1", "src/itmlogic/statistics/avar.py:avar", "scripts/p2p.py:itmlogic_p2p", "scripts/area.py:itmlogic_area"]}
{"id": "C62", "title": "Result files hold the table that was computed", "statement": "csv_writer writes a file that any reader of comma separated files turns back into the table: the keys of the first dictionary as header and one record per dictionary with the text of each value under its key; an unknown key raises ValueError and leaves the rows before it, an empty table raises IndexError and leaves an existing file alone. Every table returned by p2p.py and area.py is written that way, and the plotting script can pivot it: no (distance, confidence) or (reliability, confidence) pair occurs twice or is missing, and the confidence levels are the 10, 50 and 90 % of the legend.", "quantifier": "all tables of any size, all keys and values whose text has no carriage return, all runs of both scripts (p2p: any arithmetic; area and pivot: exact reals), any conversion of numbers to text", "why_tests_cant": "needs every text that has to be quoted and every table size; the repository has no test for it", "anchors": ["scripts/p2p.py:csv_writer", "scripts/area.py:csv_writer", "vis/vis.py:plot_area_results", "vis/vis.py:plot_p2p_results"]}
{"id": "C63", "title": "Sampled terrain profile of a link", "statement": "terrain_p2p returns the elevations of points on the straight line between transmitter and receiver, the first one the transmitter's, with the geodesic distance in km; the profile from the other end is the same profile reversed; p2p.py takes each elevation at the distance where it was sampled.", "quantifier": "all pairs of points, all elevation models (any function of the coordinates, with holes), all geodesic lengths, over exact reals", "why_tests_cant": "needs arbitrary elevation models and both directions; the repository has no test for terrain_p2p", "anchors": ["scripts/terrain_module.py:terrain_p2p", "scripts/p2p.py:straight_line_from_points", "scripts/p2p.py:itmlogic_p2p"]}
{"id": "C64", "title": "The area script finishes or divides by zero, and when", "statement": "For every everyday request (frequency from 1 MHz, antennas from 0.5 m to 3 km, irregularity up to 500 m, either polarisation, any siting criteria) and every distance grid with a positive fine step, area.py returns one row per grid distance and confidence level, or raises ZeroDivisionError, and no other error. It raises exactly when a grid distance before the smooth-earth horizon meets a coincidence of the line-of-sight fit (a diffraction line that is negative at zero and flat, or a sample point at the horizon), or a grid distance beyond it meets a scatter line parallel to the diffraction line.", "quantifier": "all dictionaries with the five requested entries in range, all settings of the script (levels, grid, siting), over exact reals", "why_tests_cant": "absence of domain errors over a five-dimensional continuum and loops of any length; the failing inputs have measure zero and no sampled test meets them", "anchors": ["scripts/area.py:itmlogic_area", "src/itmlogic/lrprop.py:lrprop", "src/itmlogic/preparatory_subroutines/qlra.py:qlra", "src/itmlogic/statistics/avar.py:avar"]}
{"id": "C65", "title": "The point-to-point script finishes, divides by zero or takes a bad logarithm, and when", "statement": "For every terrain of at least two heights and any positive frequency, distance and antenna heights, p2p.py over exact reals returns its fifteen rows unless (a) the argument of the rounded-earth logarithm is not positive at one of the two distances of the diffraction line, or (b) one of the coincidences of C64 holds at the path length; each of the two outcomes happens exactly then. Up to 200 km there is no other outcome; beyond, the same holds as long as the scattering angle 200 km behind the horizons is positive. Outcome (a) occurs: at 20 MHz between masts of 300 m just behind hills of 301 m the script returns fifteen rows of NaN without an error.", "quantifier": "all dictionaries with the five requested entries, all height lists of any length, over exact reals; the NaN table is one run in Python's arithmetic", "why_tests_cant": "absence of domain errors for terrain profiles of any length and shape; the exact boundary of a NaN region that sampled paths rarely enter", "anchors": ["scripts/p2p.py:itmlogic_p2p", "src/itmlogic/preparatory_subroutines/qlrpfl.py:qlrpfl", "src/itmlogic/lrprop.py:lrprop", "src/itmlogic/diffraction_attenuation/adiff.py:adiff"]}
{"id": "C66", "title": "Terrain heights are relative: datum and tilt", "statement": "Adding the same number of metres to every terrain height of a path changes nothing: qlrpfl computes the same entries or fails in the same way, and p2p.py and pimter.py return the same tables. Adding a straight line (tilting the terrain) turns the take-off angles by its slope and changes nothing else. The second part holds for paths whose two horizon distances sum to less than one and a half path lengths; it is false on lines of sight: on a 5 km path falling by 20 m per sample towards the receiver all fifteen losses of p2p.py are more than 8 dB below those of the level path, because qlrpfl.py:43 compares the trend line at the receiver with the height of the last but one sample.", "quantifier": "all profiles of any number of samples, all lines, all dictionaries with positive antenna heights and curvature, over exact reals, failures included; the counterexample is one pair of runs in Python's arithmetic", "why_tests_cant": "a relation between two runs on every profile and every offset; a test compares a few", "anchors": ["src/itmlogic/preparatory_subroutines/qlrpfl.py:qlrpfl", "src/itmlogic/preparatory_subroutines/hzns.py:hzns", "src/itmlogic/preparatory_subroutines/zlsq1.py:zlsq1", "src/itmlogic/preparatory_subroutines/dlthx.py:dlthx", "scripts/p2p.py:itmlogic_p2p", "scripts/pimter.py:run_itmlogic"]}
{"id": "C67", "title": "Straight ground is smooth ground: point-to-point meets area prediction", "statement": "Over ground rising steadily or level towards the receiver, on a path no longer than the two smooth-earth horizon distances together, point-to-point mode gives what area mode gives for smooth ground: qlrpfl leaves exactly the entries (mdp apart) that qlra with dh = 0 and both terminals sited at random followed by lrprop at the path's length leaves, or fails with the same exception, and avar returns the same quantiles afterwards. How finely such ground is sampled, how high it lies and how fast it rises change none of p2p.py's losses nor its propagation mode. It does not extend to ground falling towards the receiver: there the receiver's effective height is its height plus the drop of one sample.", "quantifier": "all straight profiles of any number of samples, all dictionaries with positive antenna heights and curvature, all deviates, over exact reals, failures included", "why_tests_cant": "an identity between two programs (qlrpfl and qlra/lrprop) on every straight profile; a test compares a few", "anchors": ["src/itmlogic/preparatory_subroutines/qlrpfl.py:qlrpfl", "src/itmlogic/preparatory_subroutines/qlra.py:qlra", "src/itmlogic/lrprop.py:lrprop", "src/itmlogic/statistics/avar.py:avar", "scripts/p2p.py:itmlogic_p2p"]}
{"id": "C68", "title": "Predictions stay within a fixed band of the reference attenuation and of free space", "statement": "Whatever the path, avar moves a prediction away from the reference attenuation by no more than a bound that depends only on the climate and the deviates: the median by at most 7.1 dB down and 9.67 dB up over all climates (4.3 down and 0.62 up for continental temperate), with standard deviations of at most 8 to 18.8 dB in time, 10 dB over locations and 8 dB over situations. For levels asked through qerfi the result is never 34 dB below free space nor 311 dB above a non-negative reference attenuation. Hence every loss in p2p.py's table lies between free space plus squash(reference - 71.2) and free space plus reference + 67.5 and never 10 dB below free space, its 50/50 row within 4.3 dB below and 0.62 dB above, and no loss of area.py is 8 dB below free space at its distance (29 dB with other settings).", "quantifier": "all dictionaries reachable through earlier avar calls, all distances, irregularities, frequencies, climates, modes, deviates and levels, all terrain profiles, over exact reals", "why_tests_cant": "a bound on a result over every distance, frequency, climate and level; a test reads a few values", "anchors": ["src/itmlogic/statistics/avar.py:avar", "src/itmlogic/misc/qerfi.py:qerfi", "scripts/p2p.py:itmlogic_p2p", "scripts/area.py:itmlogic_area"]}
{"id": "C69", "title": "Errors in terrain heights: bounded in the path parameters, not in the losses", "statement": "Of two profiles of one path whose heights differ by at most e at every sample (spacing xi): hzns' take-off angles differ by at most 2e/xi, and raising ground between the terminals lowers neither; the line zlsq1 fits differs by at most 2e within its window and e*sqrt(1+3t^2) at offset t; dlthx' irregularity by at most 30e (6e/(1-0.8exp(-length/50km))); on an obstructed path with the horizons at the same samples qlrpfl's effective heights differ by at most 3.4e, its irregularity by 30e and its take-off angles by 2e/xi. The losses have no such bound: where a single sample crosses the line of sight, one millimetre changes all fifteen losses of p2p.py by more than 9 dB, because qlrpfl fits its effective heights to different stretches of terrain before and after.", "quantifier": "all pairs of well-formed profiles of the same sampling, all e, all windows, all antenna heights and curvatures, over exact reals; the jump on a concrete pair in float arithmetic", "why_tests_cant": "a Lipschitz bound over all pairs of profiles; tests compare a few outputs on one profile", "anchors": ["src/itmlogic/preparatory_subroutines/hzns.py:hzns", "src/itmlogic/preparatory_subroutines/zlsq1.py:zlsq1", "src/itmlogic/preparatory_subroutines/dlthx.py:dlthx", "src/itmlogic/preparatory_subroutines/qlrpfl.py:qlrpfl", "scripts/p2p.py:itmlogic_p2p"]}
{"id": "C70", "title": "Running the scripts as programs: which files they leave, and the measured terrain left unused", "statement": "Running p2p.py: if it ends normally, p2p_results.csv reads back as exactly the table of itmlogic_p2p and the three shapefiles hold the two antennas and the 2 to 600 sample points with their elevations; if it ends with an exception the results file is as it was, and an exception of itmlogic_p2p or a sample point outside the elevation model (TypeError) touches no file at all. The results do not depend on the elevation model: two elevation models that both cover the path (flat land, an alp) leave the same p2p_results.csv, because the prediction is made on the profile written in the script and the measured one is only counted. p2p_2tiles.py writes the sample points before it predicts, so an exception leaves new points beside old results. Running area.py: the irregularity is the interdecile range of the cells, and the 66 rows are in area_results.csv or the program ends with ZeroDivisionError and an untouched file, exactly when a grid distance meets a coincidence (C64); without cells it ends with an exception and an untouched file.", "quantifier": "every arithmetic for the files and the unused terrain; over exact reals all elevation models, lengths, terminals, parameters, profiles and previous file contents (area.py: all cells differing by at most 500 m)", "why_tests_cant": "the repository has no test of the main programs; independence of the elevation model and atomicity of the outputs are statements over all elevation models and all failures", "anchors": ["scripts/p2p.py:__main__", "scripts/p2p.py:write_shapefile", "scripts/area.py:__main__", "scripts/terrain_module.py:terrain_p2p", "scripts/terrain_module.py:interdecile_range"]}
{"id": "C71", "title": "The irregularity around a transmitter is that of the terrain within the cell range", "statement": "terrain_area returns the interdecile range (to the nearest metre) of the heights within cell_range of the transmitter. It does when no cell of the raster window is masked. Otherwise it does not: interdecile_range is handed the masked array of the bounding box and np.percentile ignores the mask, so cells outside the circle and cells without data count. A plateau in surroundings of another height gets the drop to its surroundings as soon as a tenth of the window lies outside the range, while the heights in range have interdecile range 0.", "quantifier": "all windows, masks and heights; the mask is without influence in every arithmetic", "why_tests_cant": "no test has a raster; the effect depends on cells the documentation says are not looked at", "anchors": ["scripts/terrain_module.py:terrain_area", "scripts/terrain_module.py:interdecile_range", "scripts/terrain_module.py:all_data"]}
{"id": "C72", "title": "The flight script returns a row for every antenna height, in order, or stops with a known error", "statement": "For every terrain with a distance for every height sample (at least two, the first two increasing) run_itmlogic in pimter.py returns 121 rows (2488 MHz, height, 50, loss) for heights 10 to 130 m in that order, provided every height can be computed; the first height that cannot decides whether it stops with a division by zero or with the logarithm of a number that is not positive. Every row equals the one its height would give alone, although all heights share one dictionary. Of the distances only the first two and their number count: uneven sampling is taken as even and the measured path length is not used. Level ground of any height, sampled anyhow with at least two samples over at most 19 km, is always answered with all 121 rows.", "quantifier": "all terrains and distance lists; the last part in every arithmetic", "why_tests_cant": "no test runs the script; 121 calls share one dictionary whose entries are left over from the call before", "anchors": ["scripts/pimter.py:run_itmlogic"]}
{"id": "C73", "title": "Settings kept in the dictionary are not looked at by the library; a full refresh forgets the past", "statement": "lrprop, qlrpfl, qlra and avar give the same error or the same results for dictionaries that differ only in frequency (fmhz), permittivity (eps), conductivity (sgm), sea-level refractivity (ens0), earth curvature (gma), path length (d) and polarisation (ipol), and leave these entries as they are: changing them after the set-up changes nothing. avar's value after a full refresh (lvar at least 5) depends only on the deviates, wave number, effective heights, distance, irregularity, reference attenuation, climate and mode, whatever else earlier calls left in the dictionary.", "quantifier": "all dictionaries, any arithmetic", "why_tests_cant": "a claim about pairs of dictionaries and about what code does not read", "anchors": ["src/itmlogic/lrprop.py:lrprop", "src/itmlogic/preparatory_subroutines/qlrpfl.py:qlrpfl", "src/itmlogic/preparatory_subroutines/qlra.py:qlra", "src/itmlogic/statistics/avar.py:avar"]}
{"id": "C74", "title": "Every loss the scripts report is a closed formula of the request", "statement": "Every loss in the tables of p2p.py, pimter.py and area.py equals free-space loss plus the attenuation exceeded at the row's levels, written as one formula: path and environment parameters, the coefficients of the branch in use, reference attenuation, statistics of the climate and variability code, and the normal deviates of the levels. The point-to-point rows use mode 11 with time and situation deviates, the flight rows the deviate of level 50 read as a fraction, the area rows mode 3; in the area table every distance within the smooth-earth horizon uses the reference attenuation of the first distance. lrprop's first call and avar's first call are the corresponding parts: the reference attenuation and the value for all deviates are functions of the entries named in the specification.", "quantifier": "all requests the scripts answer, all settings of area.py, all deviates", "why_tests_cant": "a test compares a few published numbers to a tolerance; it cannot show that no leftover entry, skipped refresh or shared state enters any loss", "anchors": ["scripts/p2p.py:itmlogic_p2p", "scripts/pimter.py:run_itmlogic", "scripts/area.py:itmlogic_area", "src/itmlogic/lrprop.py:lrprop", "src/itmlogic/statistics/avar.py:avar"]}
{"id": "C75", "title": "Measurement files are read as the numbers they hold", "statement": "csv.reader returns exactly the header and cells that csv_writer wrote, whatever the cells contain; for every well-formed file it returns the records of the RFC 4180 grammar, and for every file of lines without quotes one record per line split at commas, whichever line ending is used and whether or not the last line is ended. float() accepts exactly decimal numerals with white space around them and yields the number denoted. A file in which every line starts with a number therefore yields these numbers in order, further columns being ignored; a header, a blank line (also at the end) or a line starting with anything else stops the reading with ValueError or IndexError.", "quantifier": "all tables, all files (cells up to 131072 characters, no NUL), all numerals and texts", "why_tests_cant": "a test reads a few sample files; quoting, line endings, blank lines and numerals form an unbounded space", "anchors": ["scripts/pimter.py:__main__", "scripts/p2p.py:csv_writer", "scripts/area.py:csv_writer"]}
{"id": "C76", "title": "The flight script run as a program", "statement": "Run as a program, pimter.py reads its six pairs of files and computes the losses of each. If all files hold numbers and all losses can be computed it announces the six pairs in order and ends normally, and nothing else can be observed: the losses are neither printed nor stored, so any two sets of such files give the same outcome. The first pair that fails ends the program with its error (missing file, bad line, error of the computation) after the announcements before it. The function run_itmlogic takes the heights from a global of the module, not from its argument, and is a NameError for every caller that imports it. Fewer heights than distances are an IndexError; heights beyond the number of distances are left out without notice.", "quantifier": "all contents of the files, all heights and distances", "why_tests_cant": "a test runs the program on its own data files; it cannot show that no content of the files reaches the output, nor that the argument never matters", "anchors": ["scripts/pimter.py:__main__", "scripts/pimter.py:run_itmlogic"]}
{"id": "C77", "title": "Over smooth earth attenuation grows with distance", "statement": "Without terrain irregularity (dh = 0 in area mode, straight level or rising ground in point-to-point mode), from 40 MHz and with antennas from half a metre to 3 km, every distance shorter than the two smooth-earth horizon distances is answered, and of two such distances the longer never has the smaller reference attenuation. The diffraction line rises and exceeds 1 dB at the horizon, so the order also holds beyond it as far as the diffraction line is used. There each diffraction scale length, 1/(wn gme^2)^(1/3), adds between 9.7 and 14 dB. The point-to-point script returns its fifteen rows over straight ground of any slope within the horizons. The flight script answers all its heights over straight ground of any slope up to 19.8 km.", "quantifier": "all antenna heights in range, frequencies from 40 MHz, ground impedances of at least 1/50, siting codes, pairs of distances, and all samplings and slopes of the straight ground", "why_tests_cant": "a test compares a few distances of one link; the claim orders all pairs of distances for all links, and excludes every division by zero in the line-of-sight fit", "anchors": ["src/itmlogic/lrprop.py:lrprop", "src/itmlogic/preparatory_subroutines/qlra.py:qlra", "src/itmlogic/preparatory_subroutines/qlrpfl.py:qlrpfl", "scripts/p2p.py:itmlogic_p2p", "scripts/pimter.py:run_itmlogic"]}
{"id": "C78", "title": "Raising an antenna does not make reception worse", "statement": "At a fixed distance, raising an antenna or siting it more carefully never increases the reference attenuation. Over smooth earth on the diffraction line the attenuation falls by at least the growth of the height gains, and so does not grow as long as no antenna crosses the threshold between the two height-gain formulas of fht; crossing it costs at most 4.3 dB per antenna. In general the claim is false: one millimetre more height adds over 7 dB on a line of sight over irregular ground, over 3 dB beyond the horizon with vertical polarisation over fresh water, and over 3 dB on a troposcatter path.", "quantifier": "all pairs of links differing in antenna heights and siting codes over smooth earth, all frequencies from 40 MHz and ground impedances of at least 1/50, all distances from the horizon to 2.7574 xae beyond it; binary64 witnesses for the refutations", "why_tests_cant": "the jumps sit at single heights that a test with a few heights does not hit, and the monotone part concerns all pairs of heights", "anchors": ["src/itmlogic/lrprop.py:lrprop", "src/itmlogic/preparatory_subroutines/qlra.py:qlra", "src/itmlogic/diffraction_attenuation/fht.py:fht", "src/itmlogic/diffraction_attenuation/adiff.py:adiff"]}
