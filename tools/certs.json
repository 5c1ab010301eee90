[["3677", 2, [["919", 1]]], ["66417393611", 2, [["3677", 1], ["197", 1]]], ["11290956913871", 2, [["66417393611", 1]]], ["3769", 2, [["157", 1]]], ["204061199", 2, [["3769", 1], ["107", 1]]], ["34282281433", 2, [["204061199", 1]]], ["774023187263532362759620327192479577272145303", 2, [["11290956913871", 1], ["34282281433", 1]]], ["835945042244614951780389953367877943453916927241", 2, [["774023187263532362759620327192479577272145303", 1]]], ["115792089210356248762697446949407573530086143415290314195533631308867097853951", 2, [["835945042244614951780389953367877943453916927241", 1]]], ["104471", 2, [["337", 1]]], ["3969899", 2, [["104471", 1]]], ["1002328039319", 2, [["3969899", 1]]], ["311245691", 2, [["311", 1], ["29", 2]]], ["622491383", 2, [["311245691", 1]]], ["1201", 2, [["5", 2], ["3", 1]]], ["9350987", 2, [["1201", 1], ["229", 1]]], ["187019741", 2, [["9350987", 1]]], ["9547", 2, [["43", 1], ["37", 1]]], ["38189", 2, [["9547", 1]]], ["17449", 2, [["727", 1]]], ["3407", 2, [["131", 1]]], ["115792089210356248762697446949407573529996955224135760342422259061068512044369", 2, [["1002328039319", 1], ["622491383", 1], ["187019741", 1], ["38189", 1], ["17449", 1], ["3407", 1]]], ["275729", 2, [["907", 1]]], ["54251", 2, [["31", 1], ["7", 1], ["5", 1]]], ["108341181769254293", 2, [["275729", 1], ["54251", 1]]], ["379787", 2, [["283", 1], ["61", 1]]], ["11393611", 2, [["379787", 1]]], ["149309", 2, [["229", 1], ["163", 1]]], ["6277101735386680763835789423207666416083908700390324961279", 2, [["108341181769254293", 1], ["11393611", 1], ["149309", 1]]], ["6829", 2, [["569", 1]]], ["46245989", 2, [["6829", 1]]], ["54623", 2, [["881", 1]]], ["7244839476697597", 2, [["46245989", 1], ["54623", 1]]], ["9564682313913860059195669", 2, [["7244839476697597", 1]]], ["2389", 2, [["199", 1]]], ["6277101735386680763835789423176059013767194773182842284081", 2, [["9564682313913860059195669", 1], ["2389", 1], ["5", 1]]], ["65537", 3, [["2", 9]]], ["26959946667150639794667015087019630673557916260026308143510066298881", 22, [["65537", 1], ["641", 1], ["257", 1], ["17", 1], ["5", 1], ["3", 1], ["2", 71]]], ["10909", 2, [["101", 1], ["3", 1]]], ["11105363", 2, [["10909", 1]]], ["821796863", 2, [["11105363", 1]]], ["432621809776543", 2, [["821796863", 1]]], ["136401162692544977256234449", 2, [["432621809776543", 1]]], ["34646440928557194402992574983797", 2, [["136401162692544977256234449", 1]]], ["375503554633724504423937478103159147573209", 2, [["34646440928557194402992574983797", 1]]], ["50520606258875818707470860153287666700917696099933389351507", 2, [["375503554633724504423937478103159147573209", 1]]], ["26959946667150639794667015087019625940457807714424391721682722368061", 2, [["50520606258875818707470860153287666700917696099933389351507", 1]]], ["105957871", 2, [["881", 1], ["211", 1]]], ["529709925838459440593", 2, [["105957871", 1], ["181", 1], ["7", 1]]], ["513928823", 2, [["661", 1], ["599", 1]]], ["53448597593", 2, [["513928823", 1]]], ["1357291859799823621", 2, [["53448597593", 1]]], ["3253", 2, [["271", 1]]], ["312289", 2, [["3253", 1]]], ["38557", 2, [["17", 1], ["7", 1], ["3", 1]]], ["8389", 2, [["233", 1]]], ["19173790298027098165721053155794528970226934547887232785722672956982046098136719667167519737147526097", 2, [["529709925838459440593", 1], ["1357291859799823621", 1], ["312289", 1], ["38557", 1], ["8389", 1]]], ["39402006196394479212279040100143613805079739270465446667948293404245721771496870329047266088258938001861606973112319", 2, [["19173790298027098165721053155794528970226934547887232785722672956982046098136719667167519737147526097", 1]]], ["9863677", 2, [["881", 1], ["311", 1]]], ["37344768852931", 2, [["9863677", 1]]], ["55942463741690639", 2, [["37344768852931", 1]]], ["37447", 2, [["79", 2]]], ["8463023", 2, [["37447", 1]]], ["248431", 2, [["13", 2], ["7", 1]]], ["1059392654943455286185473617842338478315215895509773412096307", 2, [["55942463741690639", 1], ["8463023", 1], ["248431", 1], ["251", 1]]], ["3055465788140352002733946906144561090641249606160407884365391979704929268480326390471", 2, [["1059392654943455286185473617842338478315215895509773412096307", 1]]], ["39402006196394479212279040100143613805079739270465446667946905279627659399113263569398956308152294913554433653942643", 2, [["3055465788140352002733946906144561090641249606160407884365391979704929268480326390471", 1]]], ["8620289", 2, [["223", 1], ["151", 1]]], ["2534364967", 2, [["8620289", 1]]], ["145295143558111", 3, [["2534364967", 1]]], ["1237", 2, [["103", 1]]], ["49481", 2, [["1237", 1]]], ["308761441", 3, [["49481", 1]]], ["7623851", 3, [["317", 1], ["37", 1]]], ["858001", 3, [["13", 1], ["11", 1], ["5", 2]]], ["1051", 2, [["7", 1], ["5", 1]]], ["409891", 3, [["1051", 1]]], ["61681", 3, [["257", 1]]], ["51481", 3, [["13", 1], ["11", 1], ["5", 1]]], ["42641", 3, [["41", 1], ["13", 1]]], ["8191", 3, [["13", 1], ["7", 1]]], ["2731", 3, [["13", 1], ["7", 1]]], ["1613", 3, [["31", 1], ["13", 1]]], ["6864797660130609714981900799081393217269435300143305409394463459185543183397656052122559640661454554977296311391480858037121987999716643812574028291115057151", 3, [["145295143558111", 1], ["308761441", 1], ["7623851", 1], ["858001", 1], ["409891", 1], ["61681", 1], ["51481", 1], ["42641", 1], ["8191", 1], ["2731", 1], ["1613", 1], ["521", 1], ["157", 1], ["131", 1], ["53", 1], ["41", 1], ["31", 1], ["17", 1]]], ["118913", 2, [["929", 1]]], ["11923882163", 2, [["118913", 1]]], ["2742492897491", 2, [["11923882163", 1]]], ["3154339", 2, [["179", 1], ["89", 1]]], ["12617357", 2, [["3154339", 1]]], ["1117814976287443177659483657095414003", 2, [["2742492897491", 1], ["12617357", 1]]], ["9894712450279245035225391287211308533561263802001480744023", 2, [["1117814976287443177659483657095414003", 1]]], ["2374730988067018808454093908930714048054703312480355378565521", 2, [["9894712450279245035225391287211308533561263802001480744023", 1]]], ["51804625509771251553534546678595322522265033968214829542043448183730599", 2, [["2374730988067018808454093908930714048054703312480355378565521", 1]]], ["3636410625392624440351547907325502812950802686368714273274221490761556277859337865760708490235892541081304511", ["plus", 11, "727282125078524888070309581465100562590160537273742854654844298152311255571867573152141698047178508216260901", "727282125078524888070309581465100562590160537273742854654844298152311255571867573152141698047178508216260902"], [["51804625509771251553534546678595322522265033968214829542043448183730599", 1]]], ["3615194794881930010216942559103847593050265703173292383701371712350878926821661243755933835426896058418509759880171943", 2, [["3636410625392624440351547907325502812950802686368714273274221490761556277859337865760708490235892541081304511", 1]]], ["6864797660130609714981900799081393217269435300143305409394463459185543183397655394245057746333217197532963996371363321113864768612440380340372808892707005449", 2, [["3615194794881930010216942559103847593050265703173292383701371712350878926821661243755933835426896058418509759880171943", 1]]]]