{"mutant": "uniform_ris_mask", "definition": "from_bytes_mod_order_wide", "edit": "multiples of eight only (clamping)", "claim": "C42; C38", "outcome": "killed", "failed_at": ["RistrettoFacts.ristrett
{"mutant": "uniform_zero_remapped", "definition": "ec_random_scalar", "edit": "zero replaced by one instead of redrawing", "claim": "C45: every scalar equally often; C38", "outcome": "killed", "failed
{'proved': 43, 'partial': 2, 'not_applicable': 0}
?? rocq/theories/Cyclic.v
?? rocq/theories/Weierstrass.v
   (197, 0, []);
   (3677, 0, []);
   (66417393611, 2, [3677; 197]);
   (11290956913871, 2, [66417393611]);
   (4349, 0, []);
   (78283, 2, [4349]);
   (5, 0, []);
   (313, 0, []);
   (704251, 2, [313; 5]);
   (46076956964474543, 2, [704251; 78283]);
   (774023187263532362759620327192479577272145303, 2, [46076956964474543; 11290956913871]);
   (835945042244614951780389953367877943453916927241, 2, [774023187263532362759620327192479577272145303]);
   (115792089210356248762697446949407573530086143415290314195533631308867097853951, 2, [835945042244614951780389953367877943453916927241]);

   (311, 0, []);
   (881, 0, []);
   (9863677, 2, [881; 311]);
   (37344768852931, 2, [9863677]);
   (55942463741690639, 2, [37344768852931]);
   (233, 0, []);
   (421, 0, []);
   (272109983, 2, [421; 233]);
   (228572385721, 2, [272109983]);
   (23314383343543, 2, [228572385721]);
   (426632512014427833817, 2, [23314383343543]);
   (1495199339761412565498084319, 2, [426632512014427833817]);
   (17942392077136950785977011829, 2, [1495199339761412565498084319]);
   (1059392654943455286185473617842338478315215895509773412096307, 2, [17942392077136950785977011829; 55942463741690639]);
   (3055465788140352002733946906144561090641249606160407884365391979704929268480326390471, 2, [1059392654943455286185473617842338478315215895509773412096307]);

   (17, 0, []);
   (127, 0, []);
   (777241, 2, [127; 17]);
   (41, 0, []);
   (71, 0, []);
   (17467, 3, [71; 41]);
   (19353437, 2, [17467]);
   (60018716061994831, 2, [19353437; 777241]);
   (4239602065187190872179, 2, [60018716061994831]);
   (7427946019382605513260578233234962521, 2, [4239602065187190872179]);
   (15994076126984618329123851002118749004583184815459808099, 2, [7427946019382605513260578233234962521]);
   (3636410625392624440351547907325502812950802686368714273274221490761556277859337865760708490235892541081304511, 2, [15994076126984618329123851002118749004583184815459808099]);
   (3615194794881930010216942559103847593050265703173292383701371712350878926821661243755933835426896058418509759880171943, 2, [3636410625392624440351547907325502812950802686368714273274221490761556277859337865760708490235892541081304511]);

   (211, 0, []);
   (881, 0, []);
   (105957871, 2, [881; 211]);
   (11, 0, []);
   (139, 0, []);
   (21407, 2, [139; 11]);
   (246608641, 2, [21407]);
   (529709925838459440593, 2, [246608641; 105957871]);
   (937, 0, []);
   (363557, 2, [937]);
   (532247449, 2, [363557]);
   (44925942675193, 2, [532247449]);
   (35581458644053887931343, 2, [44925942675193]);
   (23964610537191310276190549303, 2, [35581458644053887931343]);
   (862725979338887169942859774909, 2, [23964610537191310276190549303]);
   (20705423504133292078628634597817, 2, [862725979338887169942859774909]);
   (413244619895455989650825325680172591660047, 2, [20705423504133292078628634597817]);
   (12397338596863679689524759770405177749801411, 2, [413244619895455989650825325680172591660047]);
   (19173790298027098165721053155794528970226934547887232785722672956982046098136719667167519737147526097, 2, [12397338596863679689524759770405177749801411; 529709925838459440593]);

   (1237, 0, []);
   (49481, 2, [1237]);
   (308761441, 3, [49481]);
   (347, 0, []);
   (1663, 0, []);
   (2400573761, 3, [1663; 347]);
   (11, 0, []);
   (397, 0, []);
   (2995763, 2, [397; 11]);
   (65427463921, 3, [2995763]);
   (1433, 0, []);
   (227, 0, []);
   (23609, 2, [227]);
   (108140989558681, 3, [23609; 1433]);
   (151, 0, []);
   (223, 0, []);
   (8620289, 2, [223; 151]);
   (2534364967, 2, [8620289]);
   (145295143558111, 3, [2534364967]);
   (7, 0, []);
   (2437, 0, []);
   (9211861, 2, [2437; 7]);
   (24098228377, 2, [9211861]);
   (674750394557, 2, [24098228377]);
   (361725589517273017, 2, [674750394557]);
   (173308343918874810521923841, 3, [361725589517273017]);
   (6864797660130609714981900799081393217269435300143305409394463459185543183397656052122559640661454554977296311391480858037121987999716643812574028291115057151, 3, [173308343918874810521923841; 145295143558111; 108140989558681; 65427463921; 2400573761; 308761441]);
