#!/usr/bin/env python3
# Writes /verif/properties.jsonl from the list below (one JSON object per line).
import json, os
P=[]
def p(id,title,statement,quantifier,why,anchors):
    P.append(dict(id=id,title=title,statement=statement,quantifier=quantifier,why_tests_cant=why,anchors=anchors))

p("C01","Calendar date to Julian day is the true day count",
  "For every real calendar date (Julian calendar up to 4 Oct 1582, Gregorian from 15 Oct 1582) the Julian day returned by toJD at 12:00 equals the number obtained by counting days one at a time from 1 Jan -4712 (JD 0), following only the leap-year rules and the 10-day jump of October 1582.",
  "all real dates from 1 March -4716 up to the year 5,772,803 (above that Y*372 leaves the int range); any time of day",
  "millions of years of dates; the formula mixes double arithmetic with C truncation, so a single unlucky date could be off by one",
  ["mylib/tool.cpp:toJD"])
p("C02","Julian day to calendar date is the true inverse of day counting",
  "setFromJD at noon of day number D returns exactly the calendar date reached by counting D days from JD 0, in particular it always returns a real calendar date and never one of the ten dates 5..14 Oct 1582.",
  "all day numbers D for which the program's int arithmetic does not overflow",
  "unbounded range of days; rounding of (D-122.1)/365.25 and D/30.601 decides month boundaries",
  ["mylib/tool.cpp:setFromJD"])
p("C03","Date round trip",
  "Converting a calendar date to a Julian day and back gives the same date, and converting a day number to a date and back gives the same day number.",
  "all real dates from 1 March -4716 up to year 5,772,803; all day numbers -1401..2100000000; any time of day not within the rounding error of midnight",
  "round trip must hold for each of about 1.8 billion dates",
  ["mylib/tool.cpp:toJD","mylib/tool.cpp:setFromJD"])
p("C04","Years before -4716",
  "The round trip of C03 also holds for years before -4716 (the program accepts such years and its own demo uses year -5621).",
  "all years representable",
  "tests around the modern era never reach the point where C truncation and floor differ",
  ["mylib/tool.cpp:toJD"])
p("C05","Clock fields are in range",
  "For every double jd whose day number fits an int, setFromJD returns hour in 0..23, minute in 0..59 and second in [0,60).",
  "all finite doubles jd with -2147483648 <= jd <= 2147429998",
  "2^60 inputs; a result of 24h or 60s would come from rounding of F*24 or F*60 for a few inputs only",
  ["mylib/tool.cpp:setFromJD"])
p("C06","Printed date-time is a valid time of day",
  "JD2str/DD2str never prints an hour field above 23: rounding the seconds up at the end of a day must carry into the next date.",
  "all jd",
  "only the last half second of a day is affected",
  ["mylib/tool.cpp:DD2str","mylib/tool.cpp:JD2str"])
p("C07","timeStr prints a valid time of day",
  "timeStr always prints hh:mm:ss with hh in 00..23, mm and ss in 00..59, and the printed time differs from the time of day of jd by at most half a second.",
  "all jd in the int range",
  "only the last half second of a day is affected; the arithmetic s/3600.0, s/60.0 has to floor correctly for all 86400 values",
  ["mylib/tool.cpp:timeStr"])
p("C08","Date text identifies the date",
  "The text made by DD2str determines year, month, day, hour, minute, second: the fields can be read back exactly.",
  "all dates with year between -9999 and 99999; and all other years (where the year column is cut)",
  "needs all years and all fields; out-of-range years lose leading characters silently",
  ["mylib/tool.cpp:DD2str"])
p("C09","Integer to text is exact decimal",
  "to_str of an int gives the canonical decimal text: reading the text in base ten gives the value back, no leading zero, '-' only for negative values; also for 64-bit integers.",
  "all 32-bit and 64-bit signed and unsigned integers",
  "2^64 inputs; the code uses fixed-point reciprocal multiplications whose rounding must be right for each of them",
  ["mylib/mystl/itoa.h:to_text_from_integer","mylib/mystl/my_string.h:to_str"])
p("C10","Text to integer inverts integer to text, independent of history",
  "my_stoi(to_str(n)) = n for every int n, whatever conversions happened before in the process; out-of-range text is rejected.",
  "all ints n, all prior values of errno, all digit strings",
  "depends on hidden process state (errno) left by earlier calls",
  ["mylib/mystl/my_string.h:my_stoi"])
p("C11","string_replace replaces every occurrence and terminates",
  "For a non-empty pattern string_replace terminates and returns the text in which every leftmost non-overlapping occurrence is replaced; inserted text is never re-scanned.",
  "all byte strings; also the empty pattern (where it must not hang)",
  "all strings; termination is not testable",
  ["mylib/tool.cpp:string_replace"])
p("C12","split is lossless for a one-byte separator",
  "split(s, c) returns pieces without c whose concatenation with c in between is s; it never returns fewer than one piece and never throws.",
  "all byte strings s and all separator bytes c; also separators longer than one byte",
  "all strings",
  ["lunar/lunar_ob.cpp:split"])
p("C13","fill_str pads on the left to the requested width",
  "fill_str(s,n,c) is s preceded by exactly max(0,n-len(s)) copies of c.",
  "all strings s, c and all ints n",
  "all strings and widths, including negative widths",
  ["mylib/tool.cpp:fill_str"])
p("C14","Angle text fields stay in range and denote the angle",
  "rad2strE/rad2str2 print minutes and seconds below 60 after all carries, and the printed degrees/minutes/seconds differ from the value that was split by at most half a unit of the last printed digit.",
  "all split values (any non-negative number of degrees below 2^31), any number of decimals 0..5",
  "the triple carry fires only for a vanishing set of angles",
  ["mylib/tool.cpp:rad2strE","mylib/tool.cpp:rad2str2"])
p("C15","Correction tables decompress to what the comments promise",
  "The 30 successive text replacements expand every letter of the compressed table independently of the order of replacement; the result contains only digits 0,1,2 and has 16598 entries (new moons) and 7567 entries (solar terms) as the comments promise.",
  "every input text for the expansion law; the two shipped tables for the lengths",
  "order independence is a statement about all texts; a wrong length only shows as a read past the end at the end of the era",
  ["lunar/lunar_ssq.cpp:SSQ::jieya"])
p("C16","Era correction lookups stay inside the decompressed tables",
  "For every jd for which the corrected historical algorithm is used, the index into the correction text is at least 0 and below its length, so no byte past the end is ever read, and the correction changes the day by at most one.",
  "all doubles jd in the era 619..1960 (new moons) and 1645..1960 (solar terms)",
  "continuum of inputs; the bound depends on double division",
  ["lunar/lunar_ssq.cpp:SSQ::calc"])
p("C17","Mean-calendar lookups stay inside the parameter tables",
  "For every jd for which the linear historical tables are used, the segment search stops at a segment that exists and that contains jd, so no parameter past the end is read; every jd is served by exactly one of the three eras.",
  "all doubles jd",
  "continuum of inputs; comparison jd+pc < B[i+2] after rounding",
  ["lunar/lunar_ssq.cpp:SSQ::calc"])
p("C18","Leap month rule",
  "When thirteen months fit between two winter solstices exactly one month is marked leap, it is month 1..12, it is the first month (after the solstice month) containing no major solar term, months before it keep their number and months from it on are numbered one lower; otherwise no month is leap.",
  "all tables of solar terms and new moons",
  "all tables; the search loop is only bounded because of the guard above it",
  ["lunar/lunar_ssq.cpp:SSQ::calcY"])
p("C19","Month naming never indexes outside the name tables",
  "In the years -721..-104 special naming, the year-head search always finds a year head, and every name index is within its table.",
  "all new-moon tables the era can produce",
  "the search loop would read ns[-1] if no year head precedes the month",
  ["lunar/lunar_ssq.cpp:SSQ::calcY"])
p("C20","Month names of a lunar year",
  "Outside the special eras the months of a lunar year carry the names 十一,腊,正,二,...,十 in cyclic order, the leap month repeats the name of the month before it, and no other two neighbouring months have the same name.",
  "all tables of solar terms and new moons",
  "all tables and leap positions",
  ["lunar/lunar_ssq.cpp:SSQ::calcY"])
p("C21","A month page lists the days of the month",
  "The page for a Gregorian/Julian month has as many days as the month (28..31, 21 in October 1582), its day labels are the days of that month in order, its day numbers are consecutive, and weekday advances by one per day and agrees with the day number; week rows are those of a Sunday-first calendar sheet.",
  "all months of all years >= -4716 in the int-safe range",
  "all months; first weekday uses % on shifted values",
  ["lunar/lunar.cpp:yueLiCalc"])
p("C22","Ordinal-weekday festivals",
  "An entry 'k-th weekday w of month m' is reported on exactly the k-th such weekday, and an entry with k=5 is reported exactly on the last such weekday whenever the weekday is Sunday.",
  "all month shapes (first weekday, number of days) and all days",
  "the last-week shortcut is right only for some weekdays",
  ["lunar/lunar_ob.cpp:OBA::getDayName"])
p("C23","Sexagenary pillars",
  "Year, month, day and hour pillars use in-range table indices, the day pillar advances one step of the 60-cycle per day, the hour pillar advances one step per double hour, the hour stem follows from the day stem by the five-rats rule and the month stem from the year stem by the five-tigers rule, and the marked entry of the 13-entry hour table equals the hour pillar.",
  "all instants in the int-safe range",
  "all days and hours; negative remainders of C would index before the table",
  ["lunar/lunar_ob.cpp:OBB::mingLiBaZi","lunar/lunar.cpp:yueLiCalc"])
p("C24","Islamic calendar conversion",
  "getHuiLi returns exactly the date of the tabular Islamic calendar (30-year cycle, leap years 2,5,7,10,13,16,18,21,24,26,29, months of 30 and 29 days alternating, last month 30 in leap years) obtained by counting days from its epoch.",
  "all day numbers with |d0| < 2^30",
  "unbounded days; the code uses empirical decimal constants",
  ["lunar/lunar_ob.cpp:OBA::getHuiLi"])
p("C25","Era names of a year",
  "getNH(y) lists exactly the eras of the table whose span contains y, in table order, with the right year-in-era number, for any well-formed table; the shipped table is well formed (7 fields per era, three integers first).",
  "all years y, all well-formed era tables",
  "all years and tables",
  ["lunar/lunar_ob.cpp:OBB::getNH","lunar/lunar_ob.cpp:OBB::init"])
p("C26","Fixed-date festivals",
  "getDayName never throws on the shipped festival table and reports an entry exactly when day and month agree and the year lies within the entry's limits (from 1850 if it has none), in the class given by its mark.",
  "all days of all years",
  "all years; substr(5,1) throws on short entries",
  ["lunar/lunar_ob.cpp:OBA::init","lunar/lunar_ob.cpp:OBA::getDayName"])
p("C27","Laba festival is reported",
  "The lunar festival table reports 腊八节 on the eighth day of month 腊.",
  "all lunar days",
  "a festival that can never be reported needs a statement about all days",
  ["lunar/lunar_ob.cpp:OBB::getDayName2"])
p("C28","New Year's Eve is the last day of the year",
  "除夕 is reported on a day if and only if it is the last day of a month 腊 that is followed by month 正.",
  "all lunar days with month length 29 or 30",
  "all combinations of month length, leap and next month",
  ["lunar/lunar_ob.cpp:OBB::getDayName2"])
p("C29","Holiday flag is determined by the day",
  "After computing a month page the holiday flag of every day has a value determined by the day.",
  "all days",
  "a read of an uninitialised flag often looks right in tests",
  ["lunar/lunar.cpp:yueLiCalc","lunar/lunar_ob.cpp:OBA::getDayName"])
p("C30","Lunar month containing a day",
  "Given month starts with lengths 29 or 30, the estimate-and-correct search in the month page finds the month that contains the day, so the day-in-month index is within the 30-entry name table and within the month; likewise for the 24 solar terms.",
  "all tables with month lengths 29/30 (solar term spacing 13..17 days and cumulative drift bound), all days covered",
  "all tables",
  ["lunar/lunar.cpp:yueLiCalc"])
p("C31","Angle normalisation",
  "rad2mrad returns a congruent angle in [0,2pi) and rad2rrad one in (-pi,pi].",
  "all real angles (exact arithmetic); all doubles for the range",
  "all reals; the double result can round up to 2pi",
  ["eph/eph0.cpp:rad2mrad","eph/eph0.cpp:rad2rrad"])
p("C32","Delta-T table lookup is safe and piecewise correct",
  "dt_calc never reads outside its table for any year that is not NaN, uses the row that covers the year, and is continuous where the table meets the extrapolation and where the blend ends.",
  "all doubles y",
  "continuum of years",
  ["eph/eph0.cpp:dt_calc"])
p("C33","Precession quantity lookup",
  "For each of the twelve quantity names and each of the three models prece selects the row of that quantity and stays inside the coefficient table and inside its 4-byte name buffer.",
  "all supported names and models; every other short name",
  "12 x 3 table offsets found by text search with overlapping names",
  ["eph/eph0.cpp:prece"])
p("C34","Planet series evaluation stays inside its tables",
  "XL0_calc reads only inside the coefficient table of the planet for every requested number of terms.",
  "all planets, coordinates and term counts",
  "all term counts; truncation count is computed with rounding",
  ["eph/eph0.cpp:XL0_calc"])
p("C35","Moon series evaluation stays inside its tables",
  "XL1_calc reads only inside the coefficient tables for every requested number of terms.",
  "all coordinates and term counts in the int-safe range",
  "all term counts",
  ["eph/eph0.cpp:XL1_calc"])
p("C36","Precession and its inverse cancel",
  "Applying J2000-to-date precession and then date-to-J2000 precession (ecliptic or equatorial) returns the same direction.",
  "all directions, dates and models, in exact arithmetic",
  "continuum; only true if each rotation is undone in reverse order with the right sign",
  ["eph/eph0.cpp:CDllr_J2D","eph/eph0.cpp:CDllr_D2J","eph/eph0.cpp:HDllr_J2D","eph/eph0.cpp:HDllr_D2J"])
p("C37","Coordinate rotation is a rotation",
  "llrConv turns the direction by the given angle about the x axis: the rectangular coordinates of the result are the rotated rectangular coordinates of the input and the distance is unchanged.",
  "all directions with |latitude| < pi/2 and all angles, in exact arithmetic",
  "continuum",
  ["eph/eph0.cpp:llrConv"])
p("C38","Spherical and rectangular coordinates are inverse",
  "xyz2llr and llr2xyz are inverse to each other.",
  "all non-zero vectors; all spherical coordinates in normal range; exact arithmetic",
  "continuum",
  ["eph/eph0.cpp:llr2xyz","eph/eph0.cpp:xyz2llr"])
p("C39","Line meets Earth ellipsoid",
  "lineEll returns a point that lies both on the line and on the ellipsoid, and of the two intersections it is the one nearest to the first point; it reports a miss exactly when the line misses.",
  "all pairs of distinct points with positive semi-axes, exact arithmetic",
  "continuum",
  ["eph/eph.cpp:lineEll"])
p("C40","Contact times of a straight motion with a circle",
  "The contact time computed from position and velocity puts the moving point on the circle of the given radius, choosing the earlier or later root as requested, and reports none exactly when the path misses the circle.",
  "all positions, velocities (not both zero) and radii, exact arithmetic",
  "continuum",
  ["eph/eph_rspl.cpp:lineT","eph/eph_yspl.cpp:lineT"])
p("C41","Besselian interpolation",
  "The interpolation in the eclipse table stays inside the table, returns the tabulated value at every table time it is centred on, and is exact for quantities quadratic in time.",
  "all table sizes produced by init, all times, exact arithmetic for the value",
  "all times and tables",
  ["eph/eph_rsgs.cpp:RS_GS::chazhi"])
p("C42","Eclipse table cache is coherent",
  "After init(jd,n) the table has n rows and belongs to the lunation of jd, whatever sequence of init calls was made before.",
  "all call histories",
  "quantifies over histories",
  ["eph/eph_rsgs.cpp:RS_GS::init"])
p("C43","Rise/set table does not depend on earlier calls",
  "The rise, transit and set times reported for a day by calcRTS depend only on the arguments of that call.",
  "all call histories",
  "quantifies over histories",
  ["eph/eph_szj.cpp:SZJ::calcRTS"])
p("C44","Illuminated fraction",
  "moonIll returns a value between 0 and 1.",
  "all times",
  "continuum",
  ["eph/eph0.cpp:moonIll"])
p("C45","Decimal text of a double is the rounded value",
  "to_str(v, precision) prints the digits found for v, rounded half up to the requested number of decimals; values below 1e-6 or from 1e21 on are shown with an exponent instead.",
  "all digit strings, decimal points and precisions",
  "rounding carries through runs of nines only for rare values",
  ["mylib/mystl/dtoa.h:Prettify","mylib/mystl/dtoa.h:PrettifyRoundUP"])
p("C46","Shortest-digit generation is memory safe",
  "Digit generation reads only inside its power-of-ten tables for every finite double.",
  "all finite doubles",
  "2^64 inputs",
  ["mylib/mystl/dtoa.h:DigitGen","mylib/mystl/dtoa.h:Grisu2"])
p("C47","A copied static_array is independent",
  "Iterating over a copy of a static_array visits the copy's own elements.",
  "all arrays and later updates",
  "depends on aliasing after copies and destruction of the original",
  ["mylib/mystl/static_array.h:static_array"])
p("C48","vector behaves as a list",
  "Every sequence of vector operations gives the element sequence that the same operations give on a mathematical list, and size, capacity and element access agree.",
  "all operation histories, all element values",
  "quantifies over histories",
  ["mylib/mystl/vector.h:vector"])
p("C49","vector insertion of one of its own elements",
  "push_back/insert/emplace of an element of the same vector stores the value the element had before the call.",
  "all vectors and positions",
  "depends on aliasing together with reallocation",
  ["mylib/mystl/vector.h:push_back","mylib/mystl/vector.h:insert"])
p("C50","Place-name coordinates code",
  "Decoding of the 4-character position code inverts its encoding and always gives coordinates in the documented range for the alphabet 0-9A-Za-z.",
  "all codes over the alphabet",
  "62^4 codes; character class boundaries",
  ["mylib/lat_lon_data.cpp:GeographicalPosition"])
p("C51","Dog days and plum rains follow the stem-branch rule",
  "初伏, 中伏 are reported exactly on the third and fourth 庚 day from the summer solstice on, 末伏 on the first 庚 day from the beginning of autumn on, 入梅 on the first 丙 day from grain in ear on and 出梅 on the first 未 day from minor heat on.",
  "all days, all solstice/term days",
  "ordinal rule against a comparison of texts and offsets, all phases of the 60-cycle",
  ["lunar/lunar_ob.cpp:OBB::getDayName2"])
p("C52","Lunar day notes are complete and exact",
  "getDayName2 appends to the three note strings exactly the texts of the lunar-date festivals, the year end, the solar term, the nine nines and the seasonal days that are due, in that order, and sets the holiday flag exactly when one of them is a holiday, for every lunar date.",
  "all lunar dates, month names, terms and day numbers",
  "all combinations of notes",
  ["lunar/lunar_ob.cpp:OBB::getDayName2"])
p("C53","Year pillars change on the right day",
  "The year number of the page counted from the beginning of spring changes exactly on that day, the one counted from new year changes exactly on the first day of month 正; both are the year minus 1984.",
  "all days and all natural tables of all years outside the decreed month names",
  "the year is found by rounding a day difference to tropical years",
  ["lunar/lunar.cpp:yueLiCalc"])
p("C54","Month pillar follows the year pillar",
  "On every day of the page the month pillar is the one the five-tigers rule gives for the year pillar and the number of jie since the beginning of spring.",
  "all days of all natural tables",
  "the two pillars are computed from different estimates",
  ["lunar/lunar.cpp:yueLiCalc"])
p("C55","Month page is right for every calendar and history",
  "For every lunisolar calendar of which the year tables are windows, every month page is computed without undefined behaviour or exception, after any history of earlier page computations, and each day shows its civil date, lunar month and day, term, pillars, zodiac sign, Islamic date and exactly the festivals due.",
  "all calendars, all months of -4715..2700000, all call histories",
  "static tables are reused between calls and switched within a page",
  ["lunar/lunar.cpp:yueLiCalc","lunar/lunar_ssq.cpp:SSQ::calcY"])
p("C56","Phases and terms are stored inside the page",
  "The loops that enter moon phases and exact solar terms write only to entries of days of the page, whatever the series return.",
  "all time functions",
  "depends on the values of the series",
  ["lunar/lunar.cpp:yueLiCalc"])
p("C57","Line meets ellipse",
  "lineOvl returns two points that lie on the line and on the ellipse with the given axis ratio, they are all the intersections, the number of them (1 or 2) and the distances from the start are right, and none is reported exactly when the line misses.",
  "all lines with a direction, all radii, positive axis ratios; exact arithmetic",
  "continuum",
  ["eph/eph.cpp:lineOvl"])
p("C58","Change of the centre",
  "h2g returns the position relative to the new centre: its rectangular coordinates are the difference of the two positions.",
  "all pairs of different positions; exact arithmetic",
  "continuum",
  ["eph/eph.cpp:h2g"])
p("C59","Horizontal coordinates satisfy the astronomical triangle",
  "CD2DP returns azimuth in [0,2pi) and altitude in [-pi/2,pi/2] that satisfy the three equations of the spherical triangle pole-zenith-star, distance unchanged.",
  "all directions with |declination| < pi/2, all places and sidereal times; exact arithmetic",
  "continuum; quadrants",
  ["eph/eph0.cpp:CD2DP"])
p("C60","Angular distance",
  "j1_j2 returns the angle between the two directions, in [0,pi]; below 1/1000 rad in both coordinates the short formula is within a relative error of one millionth of the chord squared.",
  "all pairs of directions; exact arithmetic",
  "continuum",
  ["eph/eph.cpp:j1_j2"])
p("C61","Besselian coordinates are inverse to equatorial ones",
  "cd2bse turns the equatorial position about the z axis and then the x axis, and bse2cd undoes it.",
  "all positions not on the Besselian pole; exact arithmetic",
  "continuum",
  ["eph/eph_rsgs.cpp:RS_GS::cd2bse","eph/eph_rsgs.cpp:RS_GS::bse2cd"])
p("C62","Shadow point on the Earth",
  "lineEar and lineEar2 return a point of the line on the ellipsoid together with the longitude and geodetic latitude of the ellipsoid normal there, longitude in (-pi,pi], and report a miss exactly when the line misses.",
  "all lines through two different points, all axis ratios > 0; exact arithmetic",
  "continuum",
  ["eph/eph.cpp:lineEar","eph/eph.cpp:lineEar2"])
p("C63","Longitudes in the eclipse table are unwrapped",
  "The angles that init stores in a row (right ascensions of Sun, Moon and crossing point) are never below those of the first row, and when the true motion since the first row is forward by less than a turn the stored difference is that motion.",
  "all pairs of angles less than a turn apart; monotonicity in double arithmetic, the motion in exact arithmetic",
  "continuum, all positions of the jump at 2 pi",
  ["eph/eph_rsgs.cpp:RS_GS::init"])
p("C64","Digits of a double read back as the same double",
  "The decimal digits and exponent that to_str finds for a double (before they are cut to the requested decimals) denote a number whose nearest double is that double; there are at most 17 digits and no leading zero.",
  "all finite non-zero doubles",
  "2^64 inputs; depends on the error of 87 cached powers of ten",
  ["mylib/mystl/dtoa.h:Grisu2","mylib/mystl/dtoa.h:DigitGen","mylib/mystl/dtoa.h:GetCachedPower"])
p("C65","vector gives up no storage with live objects in it",
  "No vector operation overwrites by construction, or frees, the storage of an element object that has not been destroyed.",
  "all operation histories, all element types and values",
  "leaks have no visible result; depends on sizes, positions and capacity",
  ["mylib/mystl/vector.h:fill_insert","mylib/mystl/vector.h:reserve","mylib/mystl/vector.h:reallocate_insert"])
p("C66","Choosing a listed place gives its coordinates",
  "Choosing a place by its numbers in the two menus, or typing its name, yields the coordinates stored for that place and the name of its province.",
  "all 3192 listed places; all place tables of that form",
  "thousands of places, names that contain or equal other names",
  ["mylib/lat_lon_data.cpp:GeographicalPosition"])
p("C67","Every answer to the place menus is handled",
  "For every number and text the user types GeographicalPosition returns coordinates without reading or writing outside its arrays.",
  "all numbers and texts",
  "unbounded input",
  ["mylib/lat_lon_data.cpp:GeographicalPosition"])
p("C68","The heap algorithms keep heaps",
  "push_heap turns a heap followed by one element into a heap; pop_heap moves a greatest element to the end and leaves a heap; make_heap makes a heap of any range; sort_heap puts a heap in ascending order; is_heap and is_sorted decide these conditions. Every one of them only rearranges the range and touches nothing outside it.",
  "all ranges of any length and element type, all strict weak orders",
  "unbounded lengths and orders; off-by-one errors show only at special lengths",
  ["mylib/mystl/heap_algo.h:push_heap_aux","mylib/mystl/heap_algo.h:adjust_heap","mylib/mystl/heap_algo.h:pop_heap","mylib/mystl/heap_algo.h:sort_heap","mylib/mystl/heap_algo.h:make_heap","mylib/mystl/algo.h:is_heap","mylib/mystl/algo.h:is_sorted"])
p("C69","sort puts a range in ascending order",
  "sort(first, last) and sort(first, last, comp) end, touch nothing outside the range and leave the same elements in ascending order.",
  "all ranges of any length and element type, all strict weak orders",
  "different code runs from 129 elements on; unbounded lengths",
  ["mylib/mystl/algo.h:sort","mylib/mystl/algo.h:intro_sort","mylib/mystl/algo.h:unchecked_partition","mylib/mystl/algo.h:insertion_sort","mylib/mystl/algo.h:unchecked_insertion_sort","mylib/mystl/algo.h:final_insertion_sort"])
p("C70","partial_sort sorts the smallest elements to the front",
  "partial_sort(first, middle, last) leaves in [first, middle) the smallest elements of the range in ascending order and the others behind them.",
  "all ranges and middles, all strict weak orders",
  "unbounded lengths",
  ["mylib/mystl/algo.h:partial_sort"])
p("C71","nth_element puts the n-th smallest element in its place",
  "nth_element(first, nth, last) ends and rearranges the range such that nothing before nth is greater than the element at nth and nothing behind it is less; likewise with a function object.",
  "all ranges and positions, all strict weak orders",
  "errors depend on the positions of the pivot and of equal elements",
  ["mylib/mystl/algo.h:nth_element","mylib/mystl/algo.h:unchecked_partition","mylib/mystl/algo.h:median"])
p("C72","Binary search finds the place of a value",
  "On an ascending range lower_bound returns the first position whose element is not less than the value, upper_bound the first whose element is greater, equal_range both, and binary_search whether an equivalent element is present; likewise with a function object. Nothing outside the range is read.",
  "all ascending ranges of any length and element type, all values, all strict weak orders",
  "unbounded lengths; errors show only for special positions and absent values",
  ["mylib/mystl/algo.h:lower_bound","mylib/mystl/algo.h:upper_bound","mylib/mystl/algo.h:binary_search","mylib/mystl/algo.h:equal_range"])
p("C73","Merging and the set operations give the right elements in order",
  "For ascending ranges merge, set_union, set_intersection, set_difference and set_symmetric_difference write an ascending range that holds, of every class of equivalent elements, exactly the elements the operation promises, in their order and those of the first range first; includes tells whether the first range holds every element of the second as often.",
  "all pairs of ascending ranges, all strict weak orders",
  "multiplicities and stability need all combinations of equal elements",
  ["mylib/mystl/algo.h:merge","mylib/mystl/set_algo.h:set_union","mylib/mystl/set_algo.h:set_intersection","mylib/mystl/set_algo.h:set_difference","mylib/mystl/set_algo.h:set_symmetric_difference","mylib/mystl/algo.h:includes"])
p("C74","reverse, rotate and the shuffles rearrange as promised",
  "reverse turns a range around; rotate exchanges [first, middle) and [middle, last) for all three kinds of iterator and returns the new place of the first element; swap_ranges exchanges two ranges; random_shuffle only rearranges the range, whatever the random numbers. Nothing outside the range is touched.",
  "all ranges, middles, iterator kinds and random numbers",
  "the cycles of rotate depend on the gcd of the lengths",
  ["mylib/mystl/algo.h:reverse","mylib/mystl/algo.h:rotate","mylib/mystl/algo.h:random_shuffle","mylib/mystl/algo.h:swap_ranges"])
p("C75","inplace_merge merges two neighbouring ranges",
  "inplace_merge(first, middle, last) leaves the stable merge of the two ascending ranges in their place, the same as merge would write, however large or small a buffer could be had, and touches nothing outside.",
  "all pairs of ascending ranges, all strict weak orders, every size of buffer, every kind of iterator",
  "the code for small buffers only runs when memory is short",
  ["mylib/mystl/algo.h:inplace_merge","mylib/mystl/algo.h:merge_adaptive","mylib/mystl/algo.h:merge_backward","mylib/mystl/algo.h:rotate_adaptive","mylib/mystl/algo.h:merge_without_buffer"])
p("C76","next_permutation and prev_permutation step through all arrangements",
  "next_permutation leaves the arrangement that follows in lexicographic order, with none between, and returns true; at the greatest arrangement it leaves the ascending one and returns false. prev_permutation does the opposite. lexicographical_compare decides the lexicographic order and is a strict weak order again.",
  "all ranges, also with equal elements, all strict weak orders",
  "that no arrangement lies between quantifies over all arrangements",
  ["mylib/mystl/algo.h:next_permutation","mylib/mystl/algo.h:prev_permutation","mylib/mystl/algobase.h:lexicographical_compare"])
p("C77","The algorithms that search a sequence find the first place, or none",
  "all_of, any_of, none_of, count and find answer for the sequence as a whole; search returns the first and find_end the last place where the second sequence occurs, search_n the first run of n elements, find_first_of and adjacent_find the first such element or pair; max_element and min_element return the first greatest and the first least element; mismatch and equal compare element by element. Without such a place the end is returned and nothing outside the sequences is read.",
  "all sequences, conditions and comparisons; find_end for forward and bidirectional iterators",
  "that no earlier place qualifies quantifies over all places of sequences of any length",
  ["mylib/mystl/algo.h:search","mylib/mystl/algo.h:search_n","mylib/mystl/algo.h:find_end","mylib/mystl/algo.h:adjacent_find","mylib/mystl/algo.h:max_element","mylib/mystl/algobase.h:mismatch","mylib/mystl/algobase.h:equal"])
p("C78","remove, replace, unique and partition rearrange a range as specified",
  "remove and remove_if put the elements that stay at the front in their order and return their end; replace changes exactly the matching elements; unique keeps the first of every run of equal neighbours, so of an ascending range one element of every class; partition puts the matching elements before the others and returns the border. The other elements of the container do not change.",
  "all ranges, also empty ones, conditions and comparisons",
  "the exact content of the range after the call is claimed for ranges of any length",
  ["mylib/mystl/algo.h:remove_if","mylib/mystl/algo.h:replace_if","mylib/mystl/algo.h:unique","mylib/mystl/algo.h:partition"])
p("C79","is_permutation decides whether one sequence is a rearrangement of another",
  "is_permutation returns true exactly when the second sequence can be rearranged so that it equals the first element by element.",
  "all pairs of sequences, also of different length, all equivalences",
  "there are n! rearrangements of a sequence",
  ["mylib/mystl/algo.h:is_permutation"])
p("C80","A map or set behaves like the ordered list of its elements under every sequence of operations",
  "Starting from an empty map, any sequence of insert, emplace, emplace_hint (any hint), operator[], erase of a position, of a range, of a key and clear runs without touching anything but live nodes of the tree; afterwards iteration from begin() to end() gives exactly the elements of the abstract ordered list (a key that is there already is not inserted again), in strictly ascending order, size() is their number, insert tells whether it inserted and gives the position of a new element, erase gives the next position, every other memory cell is as before and no node stays allocated that is not in the list.",
  "all key orders that are strict weak orders, all sequences of operations of any length, all addresses the allocator may return",
  "the red-black rebalancing has many cases that depend on the shape of trees of any size; absence of leaks and of stray writes quantifies over all histories",
  ["mylib/mystl/rb_tree.h:insert_unique","mylib/mystl/rb_tree.h:rb_tree_insert_rebalance","mylib/mystl/rb_tree.h:rb_tree_erase_rebalance","mylib/mystl/rb_tree.h:erase","mylib/mystl/map.h:map"])
p("C81","A multimap or multiset keeps its elements in order under every sequence of operations",
  "The same for insert, emplace, emplace_hint, erase and clear of a multimap or multiset: nothing is lost, the order never descends; insert and emplace put a new element behind those with equivalent keys; emplace_hint puts it somewhere the order allows.",
  "all strict weak orders, all sequences of operations",
  "as for C80; the place among equal keys is claimed for trees of any shape",
  ["mylib/mystl/rb_tree.h:insert_multi","mylib/mystl/rb_tree.h:emplace_multi_use_hint","mylib/mystl/rb_tree.h:erase_multi"])
p("C82","Lookups in an ordered container answer for the list of its elements",
  "After any history lower_bound, upper_bound, find, count, equal_range give the first element not less, the first greater, the first equivalent element, the number of equivalent ones and the range of them (or the end); at() of a key that is there gives its element and operator[] the element or a new one with the given key.",
  "all histories of operations, all keys",
  "answers for every key after every history",
  ["mylib/mystl/rb_tree.h:lower_bound","mylib/mystl/rb_tree.h:upper_bound","mylib/mystl/rb_tree.h:find","mylib/mystl/rb_tree.h:equal_range_unique","mylib/mystl/map.h:at","mylib/mystl/map.h:operator[]"])
p("C83","A search or insertion in an ordered container of n elements goes down at most 2 log2(n+1) levels",
  "After any history the loops of lower_bound, upper_bound and of the search for the place of an insertion end after at most 2 log2(n+1)+1 tests, n being size().",
  "all histories of operations, all keys",
  "a bound for trees of every shape that operations can produce",
  ["mylib/mystl/rb_tree.h:lower_bound","mylib/mystl/rb_tree.h:get_insert_multi_pos"])
p("C84","A copied map has the same elements and is independent of the original; a moved map has them all",
  "The copy constructor gives a container with the same elements in the same order at the new addresses; whatever is done with the copy afterwards, the original keeps its elements. A move constructor hands all elements over and leaves size 0.",
  "all maps reached by any history, all addresses of the new nodes, all histories of the copy",
  "independence quantifies over all later operations on the copy",
  ["mylib/mystl/rb_tree.h:copy_from","mylib/mystl/rb_tree.h:rb_tree(const rb_tree&)","mylib/mystl/rb_tree.h:rb_tree(rb_tree&&)"])
p("C85","Every kind of solar eclipse is printed with its name",
  "The kind that feature() assigns is \"N\" or one of the ten keys of the table in rs2_calc, and lxb[r.lx] gives the listed name for each of them and an empty text for anything else; for the mixed kinds the name says which parts of the central line are total and which annular.",
  "all values of the shadow parameters (doubles, also NaN), all strings, all addresses of the nodes of the map",
  "the parameters are doubles; the table is a red-black tree built at run time",
  ["eph/eph_show.cpp:rs2_calc","eph/eph_rsgs.cpp:feature"])
p("C86","The text of a year lists every month with all its terms",
  "nianLiSTR(y) has one line for every lunar month from the one with the winter solstice before the year to the one before the month with the next solstice. A line is the leap mark, the month's name, big or small, the first day as MM-DD with the exact new moon to the second, then exactly the solar terms whose days are in the month, in order, each with name, day and exact time; an exact time is red iff it falls on another day than the calendar's.",
  "all years -9000..90000, all calendars of natural months and evenly spaced terms that calcY gives for the middle of the year, all functions for the exact times (within 1000 days)",
  "the terms of a month depend on how two calendars fall against each other; every year differs",
  ["lunar/lunar.cpp:nianLiSTR","lunar/lunar_ssq.cpp:calcY"])
p("C87","The closed astronomical formulas are computed to within rounding of the published ones",
  "hcjj (obliquity), gxc_sunLon, gxc_moonLat (aberration), nutation2, nutationLon2 (nutation), E_v, M_v (speeds), pGST (sidereal time) and moonRad return finite doubles within a stated small distance (5e-16, 7e-17, 2e-16, 2e-15, 1e-9, 6e-7, 5e-8 rad, 1e-11 arc seconds) of the value of the published formula in real arithmetic, and nutationLon2 is exactly the longitude of nutation2.",
  "all doubles t within 100 centuries of J2000 (pGST: all T within 3652500 days and dt within 10; moonRad: all distances 350000..420000 km), all sine and cosine routines correct to within one unit in the last place",
  "a wrong digit in a coefficient shows only far from the present; the error must be bounded for a continuum of dates",
  ["eph/eph0.cpp:hcjj","eph/eph0.cpp:gxc_sunLon","eph/eph0.cpp:gxc_moonLat","eph/eph0.cpp:nutation2","eph/eph0.cpp:nutationLon2","eph/eph0.cpp:E_v","eph/eph0.cpp:M_v","eph/eph0.cpp:pGST","eph/eph0.cpp:moonRad"])
p("C88","The quick eclipse search finds the new moon of its lunation and names the kind rightly when it says it is certain",
  "ecFast(jd) counts jd to lunation k (29.5306 k - 8 <= jd < 29.5306 (k+1) - 8, to 1e-8). If the mean argument of latitude F has |sin F| > 0.4 (to 1e-8) the answer is the mean new moon and \"N\"; otherwise jd is the new moon by one Newton step on the published truncated elongation, to 1e-7 days; if ac is true, lx is the kind of eclipse that the shadow cone of the published series makes at that moment, and the axis is at least 0.0159 Earth radii from every limit; if ac is false, some limit is within 0.0161 or the vertex of the umbra within 0.0201 of the ground. lx is always one of eleven names, and stepping 29.5306 days from the answer leads to lunation k+1.",
  "all doubles jd within 2950000 days of J2000, all sine and cosine routines correct to within one unit in the last place (names: all doubles, any library)",
  "about 100000 lunations a side, and within each a continuum of start days; rounding near the limits decides the kind",
  ["eph/eph.cpp:ecFast"])
p("C89","The longitudes of Sun and Moon are the series of their tables to within 0.001 arc seconds",
  "S_aLon(t,-1) and MS_aLon(t,-1,-1) return finite doubles within 2.1e-9 and 4.5e-9 radians of the apparent longitude of the Sun and of the Moon's elongation given in real arithmetic by all terms of the built-in tables (627 of the Moon, 376 of the Earth), mean motion, precession, nutation and aberration. With n (m, n) terms asked for they are within that and the sum of the amplitudes of the terms left out.",
  "all doubles t within 100 centuries of J2000, all term counts up to 134960 (Moon) and 672000 (Earth), all sine and cosine routines correct to within one unit in the last place",
  "rounding of a thousand terms with arguments up to 1e6 turns cannot be sampled to a bound; a misread table row shows only in some years",
  ["eph/eph0.cpp:S_aLon","eph/eph0.cpp:MS_aLon","eph/eph0.cpp:E_Lon","eph/eph0.cpp:M_Lon","eph/eph0.cpp:XL0_calc","eph/eph0.cpp:XL1_calc","eph/eph_data.h:XL0","eph/eph_data.h:XL1"])
p("C90","S_aLon_t finds the one moment at which the Sun has a given longitude, to 2.2 seconds within 30 centuries",
  "S_aLon_t(W) returns a finite t at which the apparent longitude of the full series differs from W by at most 4e-7 radians; there is exactly one moment within 30 centuries of J2000 at which the series equal W, and t is within 2.2 seconds of it. Within 100 centuries the same holds with 2.66e-5 radians and 145 seconds.",
  "all doubles W with |W| <= 18780 (30 centuries) and |W| <= 62790 (100 centuries), all sine and cosine routines correct to within one unit in the last place",
  "two Newton steps without a convergence test; the worst case over a continuum of longitudes is not sampled, and uniqueness cannot be tested",
  ["eph/eph0.cpp:S_aLon_t","eph/eph0.cpp:S_aLon","eph/eph0.cpp:E_v"])
p("C91","MS_aLon_t finds the moment at which the Moon is a given angle ahead of the Sun, to 72 seconds within 20 centuries",
  "MS_aLon_t(W) returns a finite t at which the elongation of the full series differs from W by at most 1.38e-4 radians (28 arc seconds), and every moment within 20 centuries of J2000 at which the series equal W is within 72 seconds of t. Within 60 centuries the same holds with 0.00114 radians and 576 seconds.",
  "all doubles W with |W| <= 155400 (20 centuries) and |W| <= 466200 (60 centuries), all sine and cosine routines correct to within one unit in the last place",
  "three Newton steps, the last with the speed of the one before, and no convergence test; the worst case over a continuum of angles is not sampled",
  ["eph/eph0.cpp:MS_aLon_t","eph/eph0.cpp:MS_aLon","eph/eph0.cpp:M_v","eph/eph0.cpp:E_v"])
p("C92","SSQ::calc returns the civil day of a solar term unless it falls within 2.3 seconds of midnight",
  "For a day of the years -738..-222 or 1960..2996 SSQ::calc(jd, QI) returns the day, in Beijing time, of the one moment at which the Sun's apparent longitude by the series is the multiple of 15 degrees belonging to jd; the day is certain unless the moment is within 2.3 seconds of a midnight, and it is within 17 days of jd.  The quick search is kept only where its error of at most 1196 seconds cannot change the day.",
  "all doubles jd in those eras; sin and cos of the C library are any functions correct to within 2^-52",
  "the day depends on an iteration, a margin of 1200 seconds around midnight and the error of a truncated series over whole eras",
  ["lunar/lunar_ssq.cpp:SSQ::qi_high","lunar/lunar_ssq.cpp:SSQ::calc","eph/eph0.cpp:XL::S_aLon_t2","eph/eph0.cpp:XL::S_aLon_t"])
p("C93","The solar terms of a lunar year",
  "For a day of the years -735..-245 or 1961..2993 SSQ::calcY starts from 25 solar terms: entry i is the day of the Sun's longitude 270 degrees + 15 i of one and the same year, entry 0 is on or before the day asked for and entry 24 after it; the two terms before the solstice are those of 255 and 240 degrees.",
  "all doubles jd in those eras; sin and cos of the C library are any functions correct to within 2^-52",
  "the start of the year is found by a floor of a mean motion corrected by one comparison",
  ["lunar/lunar_ssq.cpp:SSQ::calcY","lunar/lunar_ssq.cpp:SSQ::calc"])
p("C94","SSQ::calc returns the civil day of a new moon unless it falls within 250 seconds of midnight",
  "For a day of the years -738..-721 or 1960..2996 SSQ::calc(jd, SHUO) returns the day, in Beijing time, of the one moment between 30 centuries before and 10 centuries after J2000 at which the Moon's apparent longitude less the Sun's by the series is the multiple of 360 degrees belonging to jd; the day is certain unless the moment is within 250 seconds of a midnight, and it is within 22 days of jd.",
  "all doubles jd in those eras; sin and cos of the C library are any functions correct to within 2^-52",
  "the day depends on an iteration, a margin of 1800 seconds around midnight and the error of a truncated series over whole eras",
  ["lunar/lunar_ssq.cpp:SSQ::so_high","lunar/lunar_ssq.cpp:SSQ::calc","eph/eph0.cpp:XL::MS_aLon_t2","eph/eph0.cpp:XL::MS_aLon_t"])
p("C95","The lunar calendar of every year from 1961 to 2993 follows Sun and Moon",
  "SSQ::calcY(jd) succeeds for every day of these years. Its 25 solar terms are the days on which the Sun reaches 270 degrees + 15 i by the series, its 15 month starts the days of successive new moons by the series, the first of the months holds the winter solstice, and jd lies both between the two solstices and within the 14 months. Every month has 29 or 30 days and the month lengths stored are these; major terms are 29 to 32 days apart and the solstices at most 366. There is a leap month exactly when thirteen new moons fall between the solstice months; it is then the first month without a major term, and all months before it have one. The months are named in order from the eleventh, the leap month like the one before it.",
  "all doubles jd between -14000 and 363000 days from J2000; sin and cos of the C library are any functions correct to within 2^-52",
  "twelve thousand months; that no month of the series comes out with 28 or 31 days, and that searching by mean lunations neither skips nor repeats a new moon, holds for the moments of a continuum and not for those sampled",
  ["lunar/lunar_ssq.cpp:SSQ::calcY","lunar/lunar_ssq.cpp:SSQ::calc","lunar/lunar_ssq.cpp:SSQ::so_high","lunar/lunar_ssq.cpp:SSQ::qi_high"])
p("C96","mystl::list: adding, removing and reading elements",
  "push_front, push_back, insert, emplace and their variants put exactly the new elements at the given place; pop_front, pop_back, erase, clear, resize and assign remove exactly the elements they are to remove and free each of their nodes once. All other elements keep their value and their address, so that iterators to them stay valid; the iterators returned point to the new element or behind the removed ones; size(), empty(), front(), back() and iteration in both directions agree; no other memory is touched. A list of max_size elements refuses more; pop_front, pop_back, front, back and erase(end()) on an empty list are undefined.",
  "all lists of any length at any addresses, all positions, values and numbers of elements",
  "the length of a list and the shape of memory are unbounded; a wrong prev link shows only when iterating backwards, and a node freed twice or never shows in no result at all",
  ["mylib/mystl/list.h:list::insert","mylib/mystl/list.h:list::erase","mylib/mystl/list.h:list::clear","mylib/mystl/list.h:list::resize","mylib/mystl/list.h:list::copy_assign","mylib/mystl/list.h:list::link_nodes","mylib/mystl/list.h:list::unlink_nodes"])
p("C97","mystl::list: splice, remove, unique and reverse",
  "splice moves the nodes (all, one or a range) of another list before the position without copying or freeing any, and one node within a list; both sizes are right afterwards. remove and remove_if keep exactly the other elements in their order and free the rest; unique leaves no two neighbours alike and removes nothing else; reverse reverses. Not true: a range spliced within its own list is not moved at all, and remove(x) with x an element of the list itself reads a freed node.",
  "all pairs of lists, all positions and ranges, all predicates",
  "unbounded lists and arbitrary predicates; links between nodes of two lists go wrong only in combinations of position and length",
  ["mylib/mystl/list.h:list::splice","mylib/mystl/list.h:list::remove_if","mylib/mystl/list.h:list::unique","mylib/mystl/list.h:list::reverse"])
p("C98","mystl::list: merge and sort",
  "For every comparison, even one that is no order, merge and sort come to an end and keep exactly the nodes they were given, none copied, lost or doubled. For a strict weak order the merge of two sorted lists is their stable merge, and sort sorts stably.",
  "all lists, all comparison functions",
  "sort works by relinking runs of nodes recursively; stability and termination for all lengths and comparisons cannot be tried out",
  ["mylib/mystl/list.h:list::merge","mylib/mystl/list.h:list::list_sort","mylib/mystl/list.h:list::sort"])
p("C99","mystl::list: construction, destruction, move and comparison",
  "Construction gives a list of the values in order and uses only new nodes; destruction frees every node once, so that construction and destruction leave the memory as it was. Move construction and move assignment take over the nodes and free the old elements; operator== holds exactly when both lists have the same length and equal values. Not true: a list moved from is an empty list (it has no end node: empty(), push_back and assigning from it dereference null), and self move assignment keeps the elements.",
  "all lists",
  "leaks and double frees show in no result; unbounded lists",
  ["mylib/mystl/list.h:list::list","mylib/mystl/list.h:list::~list","mylib/mystl/list.h:list::operator=","mylib/mystl/list.h:operator=="])
p("C100","The list of solar eclipses goes through the new moons one by one and reports each eclipse once",
  "rs_search(Y, M, n, fs) examines the new moons k0, k0+1, ..., k0+n-1, each exactly once and in order, where k0 is the new moon nearest to the first day of the month: it lies between 18 days before and 15 days after it, and the new moon before it is more than 15 days over. The text consists, for each of them that is an eclipse, of the civil date (year in five places, month, day) of its moment and its kind, with a new line after every fifth. A kind that the quick search calls certain is the kind by its series (C88); the others are those of the close examination.",
  "all months from about the year -993 to 4993, all n up to 60000, all libraries of sin and cos correct to 2^-52, every close examination whose moment is within 8 days of the mean new moon",
  "the step from one new moon to the next starts from a computed moment; that no month is skipped or counted twice must hold at every one of some 70000 new moons and for the rounding of each step",
  ["eph/eph_show.cpp:rs_search","eph/eph.cpp:ecFast"])
p("C101","Sunrise, sunset, twilight and transits of a day",
  "SZJ::St(jd) of a station (longitude L, latitude fa) returns moments of the local day nearest to jd. At d_z and d_x the Sun is on the meridian, above and below the pole, within 3.04e-4 of a radian, and they are within 29 minutes of local mean noon and midnight. Each of the other eight (sunrise, sunset, and begin and end of the civil, nautical and astronomical twilight) lies on the proper side of noon, and the sine of the Sun's true altitude at it is that of -50 minutes, -6, -12 or -18 degrees within 3.03e-4 + 0.0098 times the length of the last step in days; or else the text says that there is none, and then the Sun's declination is such that no hour angle would take it across that altitude by more than 3.03e-4. Up to 60 degrees of latitude sunrise and sunset always exist and the error is at most 3.37e-4 (70 arc seconds).",
  "all days within 1000000 days of J2000 (some 2738 years), all longitudes up to 7 radians, all latitudes up to 1.57, all libraries of the mathematical functions correct to 2^-52 or 2^-51",
  "continuum of places and moments; near the polar circles the two steps of the method and the test for existence work at different moments, and the hour angle is taken modulo a turn",
  ["eph/eph_szj.cpp:SZJ::St","eph/eph_szj.cpp:SZJ::Scoord","eph/eph_szj.cpp:SZJ::getH","eph/eph_szj.cpp:mod2","eph/eph0.cpp:llrConv"])
p("C102","The place of a body as seen by the observer",
  "parallax(z, H, fa, high) is the geocentric place minus the place of the station: the point at the height high above the Earth's ellipsoid where the vertical makes the angle fa with the equator, on the meridian whose right ascension is that of the body plus H. Distances below 500 are astronomical units, others kilometres. shiChaJ is the angle at the body between the pole and the zenith: sine and cosine rules of the astronomical triangle hold.",
  "all places of bodies and stations with latitude inside (-pi/2, pi/2), in exact arithmetic",
  "identities between trigonometric expressions on a continuum of places; a sign or a factor of the flattening shows only in the last digits",
  ["eph/eph0.cpp:parallax","eph/eph0.cpp:shiChaJ"])
p("C103","Kind, magnitude and contacts of a lunar eclipse",
  "lecMax reports a total, partial or no eclipse exactly when the path of the moon, taken as straight through its place at one moment near the middle with the speed of the minute after it, enters the circles with the difference or the sum of the radii; the middle is the moment nearest to the centre of the shadow, and the magnitude is (sum of radii - least distance) / diameter of the moon. Each contact is the first or last meeting with its circle of the straight path through the true place at a first estimate; its error is at most the deviation from straightness between estimate and contact. For straight motion all seven moments are exact and in order, whatever the start. Not true: every announced contact exists (a path curved enough makes the second estimate miss the circle and the moment 0, that is noon of 2000 January 1, is stored).",
  "all motions of the moon and radii (any function in place of lecXY), all starting values, in exact arithmetic",
  "continuum of motions; grazing eclipses, where the quadratic equation has nearly equal roots, are rare in any sample",
  ["eph/eph_yspl.cpp:YS_PL::lecMax","eph/eph_yspl.cpp:YS_PL::lineT"])
p("C104","Local circumstances of a solar eclipse",
  "secMax takes as greatest eclipse the best of 20 moments tried around the nearest point of the straight path; kind, magnitude and ratio are those at that moment; first and last contact are three times, second and third contact once improved meetings with the circle of the sum or difference of the radii; every moment stored is 0 or between sunrise and sunset, and when the greatest eclipse is below the horizon the magnitude at sunrise or sunset replaces it. For straight motion all five moments are exact. Not true: an eclipse invisible at the place is not announced (one that is over before sunrise keeps its kind and its magnitude).",
  "all motions of the moon relative to the sun and radii (any function in place of secXY), all moments of sunrise and sunset, in exact arithmetic",
  "continuum of motions and places; the cases near the horizon combine six moments and two magnitudes",
  ["eph/eph_rspl.cpp:RS_PL::secMax","eph/eph_rspl.cpp:RS_PL::lineT"])
p("C105","mystl::deque: iterators are positions",
  "An iterator of a deque of n values stands at one of the positions 0 to n. The difference of two iterators, their equality and their order are those of the positions; ++, --, +n and -n lead to the iterator of the position that much further, across any number of buffers, as long as it is between 0 and n; * gives the value at the position. begin() stands at 0 and end() at n.",
  "all deques (any number and position of buffers), all positions, all steps, every buffer size",
  "the step across buffers divides negative numbers and the end can lie on a buffer of its own; cases depend on the offset of the first value in its buffer",
  ["mylib/mystl/deque.h:deque_iterator::operator+=","mylib/mystl/deque.h:deque_iterator::operator-","mylib/mystl/deque.h:deque_iterator::operator++","mylib/mystl/deque.h:deque_iterator::operator--","mylib/mystl/deque.h:deque_iterator::operator<"])
p("C106","mystl::deque: access, the two ends and the buffers",
  "size, empty, [], at, front and back are those of the sequence of values. push_front, push_back, pop_front and pop_back add and remove the value at that end and change no other; shrink_to_fit changes no value. No operation touches a block that belongs to another object. A deque built and changed with these operations only has buffers exactly from the one of begin() to the one of end(), and no buffer is ever lost or freed twice: every block in use afterwards was in use by somebody else before or belongs to the deque.",
  "all deques in every reachable or unreachable state that satisfies the representation (any offset, any place in the map, any spare buffers), all values, buffers of at least two slots",
  "the map is reallocated after thousands of elements only; leaks show in no result",
  ["mylib/mystl/deque.h:deque::push_front","mylib/mystl/deque.h:deque::push_back","mylib/mystl/deque.h:deque::pop_front","mylib/mystl/deque.h:deque::pop_back","mylib/mystl/deque.h:deque::shrink_to_fit","mylib/mystl/deque.h:deque::require_capacity","mylib/mystl/deque.h:deque::reallocate_map_at_front","mylib/mystl/deque.h:deque::reallocate_map_at_back"])
p("C107","mystl::deque: inserting and erasing anywhere, resize and assign",
  "insert of one value, of n copies and of a range (forward iterators) puts the values before the position; erase removes the value or the range; resize, assign and clear give the sequence asked for; the iterator returned stands at the place of the change; other objects' blocks are untouched and erase loses no buffer. Not true: erase of a range (and with it resize, assign and operator= to fewer values) works for types with a destructor (when the slots that become free are not in one buffer the code runs with a pointer out of its buffer); a range of input iterators is inserted in order (in the first half it arrives reversed); insertion never loses a buffer (a spare buffer is overwritten).",
  "all deques, positions, counts and values",
  "whether elements before or after the position are moved, and through which buffers, depends on position, count and offset; buffers hold 16 to 4096 values",
  ["mylib/mystl/deque.h:deque::insert","mylib/mystl/deque.h:deque::insert_aux","mylib/mystl/deque.h:deque::fill_insert","mylib/mystl/deque.h:deque::copy_insert","mylib/mystl/deque.h:deque::insert_dispatch","mylib/mystl/deque.h:deque::erase","mylib/mystl/deque.h:deque::clear","mylib/mystl/deque.h:deque::resize","mylib/mystl/deque.h:deque::fill_assign","mylib/mystl/deque.h:deque::copy_assign"])
p("C108","mystl::deque: construction, move and destruction",
  "Construction from n copies, from a range of forward iterators or from another deque gives the sequence, in new blocks that all belong to the deque. Move construction takes over the values; swap exchanges them. Destruction frees the map and destroys every value once. An operation on one deque leaves any other deque as it is. Not true: destruction frees all buffers (exactly those after the first one stay allocated, so that it leaks if and only if the values reach beyond one buffer); move assignment frees the old blocks and empties the source; construction from n input iterators gives n values (it gives 2n, the first n never constructed); a deque that was moved from can be used again.",
  "all deques and values",
  "leaks and values that are not constructed show in no result of small tests",
  ["mylib/mystl/deque.h:deque::map_init","mylib/mystl/deque.h:deque::copy_init","mylib/mystl/deque.h:deque::fill_init","mylib/mystl/deque.h:deque::~deque","mylib/mystl/deque.h:deque::clear","mylib/mystl/deque.h:deque::operator=","mylib/mystl/deque.h:deque::swap"])
H="mylib/mystl/hashtable.h:hashtable::"
p("C109","hashtable: looking up",
  "find returns an element with the key, or end() exactly when there is none. count is the number of elements with the key. equal_range_multi returns the block of all elements with the key (they are neighbours in the order of iteration), equal_range_unique the one element or an empty range; both are the pair of end() when there is none. at() returns an element with the key and throws exactly when there is none.",
  "all tables, all keys, every hash function and every equality that is an equivalence respected by the hash",
  "collisions and long chains depend on the hash function and the number of buckets",
  [H+"find",H+"count",H+"equal_range_multi",H+"equal_range_unique","mylib/mystl/unordered_map.h:unordered_map::at"])
p("C110","hashtable: iterators and buckets",
  "From begin() to end() the iterators pass every element exactly once, size() elements in all. bucket_size(n) is the number of elements of bucket n, and these are the elements whose hash modulo the number of buckets is n.",
  "all tables",
  "++ has to find the next bucket that is not empty, whatever buckets are empty",
  [H+"begin",H+"bucket_size","mylib/mystl/hashtable.h:ht_iterator::operator++"])
p("C111","hashtable: insertion",
  "insert_multi adds the value; insert_unique adds it exactly when no element has its key and otherwise returns the element that has it; the ranges do this for each value in turn (the first value with a key wins); operator[] returns the element with the key and adds one if there is none. All other elements stay in the table, size() counts them, equal keys stay neighbours and nothing outside the table changes. Without a rehash all iterators stay valid.",
  "all tables and values",
  "an insertion may rebuild the whole table; the position in the chain depends on equal keys",
  [H+"insert_multi",H+"insert_unique",H+"insert_multi_noresize",H+"insert_unique_noresize",H+"copy_insert_multi",H+"copy_insert_unique","mylib/mystl/unordered_map.h:unordered_map::operator[]"])
p("C112","hashtable: emplacement",
  "emplace_multi adds the value; emplace_unique adds it exactly when no element has its key and otherwise returns the element that has it, and then gives the node back that it made. Not true of the last part: with a key that is there the new node is neither in the table nor freed, not even by the destructor.",
  "all tables and values",
  "a lost node shows in no result",
  [H+"emplace_multi",H+"emplace_unique",H+"insert_node_multi",H+"insert_node_unique"])
p("C113","hashtable: number of buckets and load factor",
  "ht_next_prime(n) is the least number of the table that is not less than n (the last for greater n). rehash(n) keeps the elements and leaves at least n buckets; with the maximum load factor 1 reserve(n) does so too for n < 2^24, and after every insertion there are at least as many buckets as elements, up to 2^24 elements. Not true: a rehash frees the old nodes (it copies every element and loses all the old ones); with another maximum load factor the load factor stays below it.",
  "all tables, all n, all histories",
  "the test is done in single precision; lost nodes show in no result",
  ["mylib/mystl/hashtable.h:ht_next_prime",H+"rehash",H+"replace_bucket",H+"reserve",H+"rehash_if_need",H+"load_factor"])
p("C114","hashtable: erasing",
  "erase(position), erase(first, last), erase_unique(key) and clear() take out exactly the elements named, keep the order of the others, count right, free the nodes taken out and change nothing else; iterators to other elements stay valid.",
  "all tables, positions and ranges, also ranges over several buckets",
  "first and last may be in the same bucket, in different buckets or at the end, with empty buckets between",
  [H+"erase",H+"erase_bucket",H+"erase_unique",H+"clear"])
p("C115","hashtable: erasing all elements with a key",
  "erase_multi(key) takes out the elements with the key and returns their number. Not true: it returns 0 when there is none, and whenever there is one it reads freed nodes, because the distance from first to last is taken after the nodes are erased.",
  "all tables and keys",
  "freed memory often still has its old contents, so that a test may see the right number",
  [H+"erase_multi"])
p("C116","hashtable: construction, copy, move, destruction, comparison",
  "A new table is empty with at least the wanted number of buckets; the unordered containers made from a range hold its values (the first of each key when unique). A copy has the same values in the same order in new nodes, assignment too, and the old nodes are freed; move assignment takes the nodes over and frees the old ones; the destructor frees all nodes of the table; the source of a copy and everything else stays. equal_to_unique is true exactly when both tables hold the same values. Not true: the constructor of hashtable from a range inserts its values (it sets the size and inserts none); a table that was moved from can be searched (it divides by zero); begin(n) can be called for every bucket (it asserts n < size()).",
  "all tables and values",
  "the order of buckets and collisions are arbitrary",
  [H+"hashtable",H+"init",H+"copy_init",H+"swap",H+"operator=",H+"~hashtable",H+"equal_to_unique",H+"begin","mylib/mystl/unordered_map.h:unordered_map::unordered_map","mylib/mystl/unordered_set.h:unordered_set::unordered_set"])
p("C117","hashtable: any history of operations",
  "Starting from an empty table with unique keys, after any sequence of insertions, insertions of ranges, erasures of keys, clear, rehash and copies the table holds exactly the values that a plain list would hold under the same operations, every key once; size() is their number and find answers as a search of the list.",
  "all histories of any length, all values, every hash function",
  "the number of histories is infinite; rehashing happens at sizes a test rarely reaches",
  [H+"insert_unique",H+"erase_unique",H+"clear",H+"rehash",H+"copy_init",H+"find"])
p("C118","queue and stack",
  "Any history of push, emplace, pop, front, back, size, empty and clear on a queue returns what a list with the new values at its end returns, and on a stack (top, push, pop, …) what a list with the new values at its head returns; an operation that needs a value fails exactly when there is none. Nothing outside the container changes and no block of memory is lost.",
  "all histories of any length, all values, all buffer sizes",
  "the number of histories is infinite; buffers are added and freed along the way",
  ["mylib/mystl/queue.h:queue","mylib/mystl/stack.h:stack"])
p("C119","priority_queue",
  "For every strict weak order and any history of construction, copy, push, pop, top, size, empty and clear: the queue is a bag of values, top is a greatest one of them, pop removes the one that top returns and keeps all the others; pop and top fail exactly when there is none. Taking top and pop until it is empty gives all values in descending order.",
  "all histories of any length, all values, all strict weak orders",
  "the heap is rearranged by every operation; equal values may be exchanged",
  ["mylib/mystl/queue.h:priority_queue"])
p("C120","numeric.h",
  "partial_sum and adjacent_difference write the sums (differences) of the source to the destination, return its end and change nothing else, also in place and when the destination begins before the source; in place each undoes the other. accumulate and inner_product combine the values from left to right; iota fills the range by counting up.",
  "all ranges, all operations (also ones that are not associative)",
  "source and destination may overlap in any way",
  ["mylib/mystl/numeric.h:accumulate","mylib/mystl/numeric.h:adjacent_difference","mylib/mystl/numeric.h:inner_product","mylib/mystl/numeric.h:iota","mylib/mystl/numeric.h:partial_sum"])
p("C121","Minutes and seconds",
  "m2fm shows a number of seconds below 2147483700 as its sign, its whole minutes and the text of the exact remainder, which is at least 0 and below 60, with the units chosen by the last argument. Rounding of the quotient never shifts the minutes. The seconds shown are below 60 and within half a unit of the last place.",
  "all finite doubles, all precisions from 0 to 8, all three kinds of units",
  "the danger is at values just below a multiple of 60, one double in 2^53",
  ["mylib/tool.cpp:m2fm"])
p("C122","Radii of the Moon's shadow",
  "With Sun and Moon as discs across the axis, an observer in the fundamental plane sees part of the Sun hidden exactly inside the radius r1 of rSM, all of it hidden exactly within r2, and the whole Moon in front of the Sun exactly within -r2. The magnitude is the ratio of the apparent sizes and is at least (at most) 1 exactly when the eclipse on the axis is total (annular).",
  "all distances, all radii, all positions of the observer",
  "a statement about every line of sight to every point of the Sun",
  ["eph/eph_rsgs.cpp:RS_GS::rSM","eph/eph_rsgs.cpp:RS_GS::init"])
p("C123","Apexes of the shadow cones",
  "zb0 places the apex of the umbra behind the Moon and that of the penumbra between Sun and Moon, on the line through their centres; a line through either apex touches the Sun exactly when it touches the Moon.",
  "all positions of Sun and Moon, all lines through the apex",
  "tangency is exact equality for a continuum of lines",
  ["eph/eph_rspl.cpp:RS_PL::zb0"])
p("C124","Speed of a place on the turning Earth",
  "On the side of the Earth that faces the Moon, vx and vy of Vxy are the time derivatives of the Besselian coordinates of a place that turns with the Earth, Vx and Vy the speed of the shadow relative to it and V its amount.",
  "all places, all orientations of the axis",
  "a derivative is not observable by running the code",
  ["eph/eph_rsgs.cpp:RS_GS::Vxy"])
p("C125","Place below a Besselian position",
  "bse2db answers the longitude and latitude of the direction from the Earth's centre (sphere), or of the normal where that ray meets the ellipsoid. bseXY2db answers those of a point of the ellipsoid on the line at right angles to the fundamental plane, or 100 for both exactly when that line misses the Earth.",
  "all positions except on the axes, all orientations",
  "geometric truth of the answer over continuous inputs",
  ["eph/eph_rsgs.cpp:RS_GS::bse2db","eph/eph_rsgs.cpp:RS_GS::bseXY2db"])
p("C126","Instants of a solar eclipse",
  "For shadow motion along a line, feature's middle is the unique instant of least distance between axis and Earth's centre; its D is that distance with the side as sign; the axis is nearer than ls exactly between the two instants computed for ls, and at ls at these instants. Speed and acceleration from three positions are exact for uniformly accelerated motion; at the noon instant the axis crosses x = 0.",
  "all positions and speeds",
  "exactly-between is a statement about every instant",
  ["eph/eph_rsgs.cpp:RS_GS::feature"])
p("C127","Limits of an eclipse",
  "nanbei reads no unset variable and answers the point where the line from the Moon's limb to the edge of the shadow meets the Earth, or 100 when it misses. The edge point is at the distance r from the axis, across the motion relative to the turning surface and on the asked side. mDian's answers lie on the limb of the Earth's disc, across the relative motion, at most r from the axis.",
  "all positions, speeds and orientations, all exits of the iteration",
  "the loops have several exits and the claims are exact",
  ["eph/eph_rsgs.cpp:RS_GS::nanbei","eph/eph_rsgs.cpp:RS_GS::mDian"])
p("C128","Constructing elements in raw storage when a constructor throws",
  "The functions uninitialized_copy, _fill, _move and their _n forms either construct all elements and return the end, or, when a constructor throws, destroy what they constructed, nothing else, and let the exception reach the caller.",
  "all element types, values, memories and all patterns of throwing constructors",
  "the catch blocks run only when a constructor fails at a chosen moment",
  ["mylib/mystl/uninitialized.h:uninitialized_copy","mylib/mystl/uninitialized.h:uninitialized_fill_n","mylib/mystl/uninitialized.h:uninitialized_move","mylib/mystl/uninitialized.h:uninitialized_move_n"])
p("C129","Vectors when a constructor throws",
  "When the constructor of an element throws, vector(n, value), vector(first, last), push_back and assign let the exception reach the caller; a vector that existed before is unchanged; no vector has elements that do not exist. Without exceptions they do what C48 says.",
  "all vectors, values, memories and all patterns of throwing constructors",
  "the catch blocks run only when a constructor fails at a chosen moment",
  ["mylib/mystl/vector.h:fill_init","mylib/mystl/vector.h:range_init","mylib/mystl/vector.h:push_back","mylib/mystl/vector.h:reallocate_insert","mylib/mystl/vector.h:fill_assign"])
p("C130","Temporary buffers",
  "get_temporary_buffer and temporary_buffer ask for the wanted number of elements, at most INT_MAX / sizeof(T), and halve it until malloc succeeds; a temporary_buffer holds copies of the first element of its range; its destructor destroys them and frees the memory, and does nothing undefined.",
  "all ranges, limits and patterns of failing malloc",
  "malloc does not fail in tests",
  ["mylib/mystl/memory.h:get_temporary_buffer","mylib/mystl/memory.h:temporary_buffer"])
p("C131","Ownership by auto_ptr",
  "In every program that copies, assigns, resets, releases and drops auto_ptrs no object is deleted twice, an object has at most one owner, and it lives exactly as long as it has one.",
  "all programs over any number of auto_ptrs, including assignment to itself",
  "there are infinitely many programs",
  ["mylib/mystl/memory.h:auto_ptr"])
p("C132","Quick sunrise and sunset",
  "sunShengJ starts at the local mean noon of the day and twice goes to the closest moment at which the upper limb of the Sun, placed as at the moment before, is on the horizon (50 minutes of arc below it for the centre), in the east for sunrise and in the west for sunset; it returns 0 exactly when the Sun so placed stays on one side of that line all day; the result can be told from a moment.",
  "all moments within 98000 years of 2000, all longitudes and all latitudes except the poles, in exact arithmetic",
  "the closest crossing is a statement about all moments, and polar day and night depend on latitude and date together",
  ["eph/eph0.cpp:sunShengJ"])
p("C133","Contacts of a solar eclipse while the Sun is up",
  "secMax keeps a moment of the eclipse if and only if the Sun is up at the place: what it keeps lies between sunrise and sunset of sunShengJ on the day of the greatest phase, and what happens while the Sun is up is kept.",
  "all motions of Sun and Moon, places and moments, in exact arithmetic",
  "needs an eclipse under the midnight sun",
  ["eph/eph_rspl.cpp:secMax","eph/eph0.cpp:sunShengJ"])
p("C134","Limits of a solar eclipse on the Earth",
  "nbj gives the place where the axis of the shadow first meets the Earth, with its kind from the apparent radii there, and for umbra and penumbra the places where the line from the limb of the Sun, at the point across the apparent motion of the Moon seen from the place of the round before, through the apex of the cone meets it, 100 if there is none; the width of the umbra is the mean radius times the distance of its two limits on the sphere mapped to the plane at their mean latitude.",
  "all places and motions of Sun and Moon, in exact arithmetic",
  "tests use a few eclipses, none with a limit on each side of the meridian of 180 degrees",
  ["eph/eph_rspl.cpp:nbj","eph/eph_rspl.cpp:p2p","eph/eph_rspl.cpp:pp0","eph/eph_rspl.cpp:zbXY"])
p("C135","Extreme distances, elongations and nodes",
  "moonMinR, earthMinR and daJu go from the mean time closest to the given one, three times, to the vertex of the parabola through three values of the distance or elongation, and return the vertex; where these are parabolas near the mean times they return moment and value of the extreme whose mean time is closest. moonNode does so for a latitude that passes zero evenly.",
  "all moments and all distances and latitudes of that form, in exact arithmetic",
  "the statement is about all motions and all moments",
  ["eph/eph0.cpp:moonMinR","eph/eph0.cpp:earthMinR","eph/eph0.cpp:moonNode","eph/eph.cpp:daJu"])
p("C136","Stations of the planets",
  "xingLiu starts at the opposition or inferior conjunction closest to the given moment, by the mean motion, and finds the station on the side asked for; with sn = 1 that is the station where the planet becomes retrograde, with sn = 0 the one where it becomes direct, for all planets.",
  "all planets and moments, all mean motions and all right ascensions that are parabolas near the mean stations, in exact arithmetic",
  "tests do not meet a station at right ascension 0, and check times, not the kind of the station",
  ["eph/eph.cpp:xingLiu"])
p("C137","Conjunctions and oppositions",
  "xingHR finds the conjunction or opposition with the Sun belonging to the mean one closest to the given moment, where the elongation in longitude is 0 or half a turn; xingHY finds the conjunction with the Moon in right ascension.",
  "all planets, all moments and all elongations that change evenly near the mean conjunction, in exact arithmetic",
  "the statement is about all motions and all moments",
  ["eph/eph.cpp:xingHR","eph/eph.cpp:xingHY"])
p("C138","Rise, transit and set of the Moon",
  "SZJ::Mt takes the lunar day whose mean transit is closest to the given noon and returns its transits, and as rise and set the moments when the Moon's upper limb is on the horizon, in the east before the upper transit and in the west after it, with an error of the second order in how much the motion differs from the mean. The calls of calcRTS for n days reach every rise, set and transit of these days. Where the Moon does not cross the horizon, no rise or set is given.",
  "all places, moments and motions of the Moon within the stated bounds, in exact arithmetic",
  "the statement is about all motions and places; high latitudes and lunar days without a noon are easily left out",
  ["eph/eph_szj.cpp:SZJ::Mt","eph/eph_szj.cpp:SZJ::Mcoord","eph/eph_szj.cpp:SZJ::getH"])
p("C139","Equation of time and local true solar time",
  "For a moment jd in UT (days from J2000 noon) and an east longitude J, the time mingLiBaZi uses, jd + pty_zty2 + J/2pi, is local true solar time: if the sky over the place is turned back by that part of a turn, the Sun stands on the upper meridian, within 0.00035 radians (4.8 seconds) plus 0.018|dt| for |jd| <= 73050 and 0.0024 plus 0.018|dt| for |jd| <= 1000000 (dt = TD - UT in days). pty_zty2 itself is at most 0.0175 of a day, so true and mean local time never differ by more than 25.4 minutes.",
  "all finite doubles jd with |jd| <= 1000000 and J with |J| <= 7, in the program's doubles; every C library within the stated error bounds",
  "a test can compare with almanac values on some days; that no sign, aberration, half turn or rounding goes wrong on any day for 5000 years needs a bound over all of them",
  ["eph/eph0.cpp:pty_zty2","lunar/lunar_ob.cpp:OBB::mingLiBaZi"])
p("C140","Sun and Moon over a place: MSC::calc",
  "MSC::calc(T, L, fa, high) computes for Sun and Moon: the apparent ecliptic place (the Sun's direction is opposite to the Earth's); right ascension and declination, which give the same place turned by the true obliquity; the hour angle, in (-pi, pi], as sidereal time over the place less right ascension; the place as seen from the station on the ellipsoid with height high; azimuth from the south westward in [0, 2pi) and altitude of that place. The apparent altitude differs from it by refraction: at most 29.1 minutes of arc, at least -0.13 seconds, never above the zenith, keeping the order of altitudes; below the horizon none, so that no body is ever shown at an apparent altitude strictly between 0 and 28.5 minutes. The true solar time shown agrees with the Sun's hour angle shown within 0.0014 radians (19.3 seconds of time; 1800 to 2200: 0.24 s) plus 0.0172|dt| radians, up to whole days. For a Moon 300000 to 1000000 km away and bodies within 30 degrees of the equator, the point shown as centre of a solar eclipse is the first point of the Earth's ellipsoid that the axis of the Moon's shadow meets, on the sunlit side, in geodetic coordinates; 100 is shown exactly if the axis misses the Earth. The umbra at the Moon is larger than the Moon and lies inside the penumbra.",
  "all real T, longitudes, latitudes strictly between the poles, heights; every nutation, coordinate and aberration function passed in; |T| <= 1000000 for the solar time",
  "a test compares a few moments; that no sign or quadrant is wrong anywhere, that the 50-degree filter before lineEar never loses an eclipse, and that refraction keeps the order are statements about a continuum",
  ["eph/eph_msc.cpp:MSC::calc","eph/eph0.cpp:MQC","eph/eph0.cpp:parallax","eph/eph.cpp:lineEar"])
p("C141","Circle and ellipse: the edge of the penumbra on the outline of the Earth (cirOvl)",
  "cirOvl(1, ba, r, x0, y0) returns no points or two. The two points are exactly on the circle with radius r around (x0, y0), A anticlockwise and B clockwise of the centre as seen from the origin, and x^2 + y^2/ba^2 differs from 1 by at most 0.00684; if circle and outline do not graze, two points are always returned and the difference is at most 0.0005. Expected beyond that: two points are returned whenever circle and outline meet. False: a penumbra that crosses the outline near the pole without reaching the equatorial radius is reported as not meeting it.",
  "all real ba in [0.9966, 1], r, and centres other than the origin",
  "the two passes of the loop share one variable (cosA), so the second point is started from the result of the first; that this is harmless for every position needs an error bound, and the lost crossings lie in a band 0.3% wide that sampling rarely hits",
  ["eph/eph.cpp:cirOvl"])
p("C142","The nutation series: short against full, and terms chosen by period",
  "nutation2, the ten-term series used everywhere, agrees with the 77-term IAU 2000B series nutation(t, 0) within 0.1801 seconds of arc in longitude and 0.1101 in obliquity for |t| <= 10 centuries. nutation(t, zq) with zq >= 1 keeps only terms whose period is at least zq days (up to the factor 36526/36525 in the code). Expected besides: it keeps every term with a longer period. False: terms whose rate, with the sign of the node turned, is negative are never kept (among them one of 411.8 days), and the periods are computed with the node's rate of the wrong sign, so that zq = 170 drops the half-yearly term of 182.6 days, an error of more than 0.4 seconds at J2000.",
  "all real |t| <= 10 (all doubles for nutation2, any C library within the stated error bounds); all 77 terms, all positive zq",
  "agreement at sampled moments does not bound the difference, which is a sum of 77 incommensurable waves; the period filter is never exercised by the program",
  ["eph/eph0.cpp:nutation2","eph/eph0.cpp:nutation","eph/eph_data.h:nuTab_DATA"])
p("C143","The equation of time of high precision and its yearly table",
  "pty_zty(t) is, in turns, the hour angle that the apparent Sun (all terms of the longitude series, aberration, main term of nutation, latitude) has when the sidereal time is the longitude of the mean Sun with the nutation in right ascension: turned back by that angle the Sun stands on the upper meridian within 2.5e-5 rad (1.64e-5 within ten centuries of J2000), and the value is at most 0.0175 of a day. shengjiang3(y) has 368 rows; row i belongs to 12h Beijing time of the day i days after 1 January (to within 0.3 ms), and that moment in UT plus the value of the row is the hour angle of the Sun at the zero meridian: within 2.44e-5 rad for years within a century of J2000 and 0.0015 rad for the whole range, plus 0.01721 rad per day of TD - UT.",
  "all doubles |t| <= 27.5; all years with noon of 1 January within 999000 days of J2000, all 368 rows; any C library within the stated error bounds",
  "the claim bounds sums of hundreds of incommensurable waves in rounded arithmetic over millennia; sampled days show only sampled errors",
  ["eph/eph0.cpp:pty_zty","eph/eph_show.cpp:shengjiang3","eph/eph0.cpp:llrConv","eph/eph0.cpp:dt_T"])
p("C144","First and last contact of the shadow with the Earth",
  "From a moment and the speed of the shadow, qrd moves the moment by t and answers a place. With f = 1/bba^2 - 1 and way = |t| times the speed, the centre of the shadow moved by t times the speed is in both coordinates within 10 f^2 + f way + way^2 of a centre from which the shadow (the axis when fs = 0, the penumbra when fs = 1) touches the outline of the Earth from outside, and the answered longitude and latitude are those of the place of the ellipsoid in the direction of the point of contact. The Earth covers in the fundamental plane exactly an ellipse with the half axes 1 and b, and bba^2 differs from b^2 by at most (1 - cs_ba^2)^2. At the answered place the axis stands at the horizon up to (1/cs_ba^2 - 1)/2 in the sine of the altitude, not exactly.",
  "all positions of the shadow, all speeds not at right angles to the position, 0 <= f <= 0.01, radii up to 0.6, way up to 0.2; all declinations",
  "first-order corrections for the flattened Earth are wrong only slightly when their formula is wrong, and no sample of eclipses has an independent answer to compare with",
  ["eph/eph_rsgs.cpp:RS_GS::qrd","eph/eph_rsgs.cpp:RS_GS::init","eph/eph_rsgs.cpp:RS_GS::feature","eph/eph_rsgs.cpp:RS_GS::bse2db"])
p("C145","partial_sort_copy answers the smallest elements in order",
  "For an input of n elements and a result range of k cells, partial_sort_copy writes min(n,k) elements to the front of the result range, in order, and returns the position behind them. They and the remaining elements of the input are together a rearrangement of the input, and none of the remaining ones is less than a written one. The other cells of the result range and the storage around it keep their values.",
  "all strict weak orders, all inputs and result ranges of any length, all surrounding storage",
  "the exchange at the top of the heap goes wrong only for particular orders of arrival, and n < k, k = 0 and equal elements need separate tests",
  ["mylib/mystl/algo.h:partial_sort_copy","mylib/mystl/algo.h:psort_copy_aux","mylib/mystl/heap_algo.h:adjust_heap"])
p("C146","Copying algorithms write the promised sequence and nothing else",
  "transform (both forms), replace_copy, replace_copy_if, remove_copy, remove_copy_if and unique_copy write the image, the changed elements, the kept elements and the first elements of the runs of equal elements of the input as it was before the call, from the result position on, return the position behind the last written cell and change no other cell. This holds when input and output lie apart and also when they overlap and the output starts not behind the input. The versions of unique_copy for forward and for output iterators agree. reverse_copy and partition_copy do the same for ranges that lie apart. for_each calls the function once per element, from front to back, and returns it. generate and generate_n write the values of successive calls of the generator; generate_n writes nothing for n <= 0.",
  "all elements, functions, predicates and equalities (also ones that are not equivalences), all lengths and positions, all surrounding storage",
  "overlap, empty ranges and writing one cell too many are seen only with storage around the ranges and each relative position needs its own test",
  ["mylib/mystl/algo.h:transform","mylib/mystl/algo.h:replace_copy","mylib/mystl/algo.h:remove_copy_if","mylib/mystl/algo.h:unique_copy","mylib/mystl/algo.h:partition_copy","mylib/mystl/algo.h:reverse_copy","mylib/mystl/algo.h:generate","mylib/mystl/algo.h:for_each"])
p("C147","Planet, Sun and Moon positions are the apparent geometry",
  "For a planet, the Sun or the Moon, the apparent ecliptic, equatorial, topocentric and horizontal coordinates which xingX prints are the coordinates of one vector: the body at the moment the light left it, seen from the Earth, turned by nutation and by the true obliquity, shifted to the station and turned to the horizon; the distances are the lengths of the vectors. The single light time iteration is off by at most the speed of the body over that of light times the light time, and taking the Earth at the earlier moment accounts for aberration to second order. xingLiu0, xingMP and xingSP return the coordinates and the differences of longitude, right ascension, latitude and declination of the same vectors, and xingJJ the angle between the directions to the planet and to the Sun. A number that names no body is refused.",
  "all ephemerides of planets, Moon and Earth, all nutation and sidereal time functions, all times, stations and bodies whose direction is not along the pole of the ecliptic",
  "the numbers agree with the tables for every body looked at whichever vector is used for the light time, and wrong quadrants show only for some directions",
  ["eph/eph.cpp:xingX","eph/eph.cpp:xingJJ","eph/eph.cpp:xingLiu0","eph/eph.cpp:xingMP","eph/eph.cpp:xingSP"])
p("C148","Texts are read as numbers in any base, with the position behind them",
  "stol, stoll, stoul and stoull return the value of the number in the text: behind blanks, a sign and, for base 16 or 0, the mark 0x, the longest run of digits in the base; base 0 means 8 after a leading 0 and 10 otherwise. The position is that behind the last digit. A number outside the type throws out_of_range, a text without a number invalid_argument, and nothing else throws; earlier calls have no influence. The unsigned ones take a negative number modulo 2^w. Texts of to_str are read back as the same integer. my_stoi returns the value of stol cut to 32 bits.",
  "all texts, bases 0 and 2 to 36, long of 32 and 64 bits (any width for the value), any state of errno",
  "texts, bases and positions cannot be enumerated, and the influence of earlier calls shows only after a range error",
  ["mylib/mystl/my_string.h:stol","mylib/mystl/my_string.h:stoll","mylib/mystl/my_string.h:stoul","mylib/mystl/my_string.h:stoull","mylib/mystl/my_string.h:my_stoi"])
p("C149","The printed times of rising and setting are those computed, in the time of Beijing",
  "shengjiang asks for the Sun and the Moon at noon, in the mean time of the place, of the given day and prints every moment of the answer with date and clock in the time of Beijing to half a second, in the line of its name, the lengths of day and of twilight as hours, minutes and seconds, and the remark when there is one. shengjiang2 prints, for 368 days from 1 January of the year on, date and time of sunrise and the time of sunset.",
  "all answers of the rising and setting functions within 2000000 days of J2000, all stations and days in that range",
  "exchanged members, wrong zones and columns cut at the wrong place show only for particular times and years",
  ["eph/eph_show.cpp:shengjiang","eph/eph_show.cpp:shengjiang2","mylib/tool.cpp:JD2str","mylib/tool.cpp:timeStr"])
p("C150","The eclipse on the screen follows the keys",
  "rs2_calc keeps the new moon it shows from call to call. Whatever was asked before, fs = 1 shows the new moon of the given day, fs = 2 the same again, fs = 3 and fs = 4 the one m months before or after when the step is m months, fs = 5 the hundred new moons from there on, one after the other, and fs = 0 shows nothing and changes nothing. Each call prints date and time of a moment within five days of that mean new moon.",
  "all sequences of calls with steps within 4 days (table: 0.02 day) of a whole number of months, new moons of about the years -993 to 4993",
  "the static variable makes each answer depend on all calls before; a drift of the step shows only after long sequences",
  ["eph/eph_show.cpp:rs2_calc","eph/eph_show.h:SYZYGY"])
p("C151","Hashes agree with equality and tell single bytes apart",
  "mystl::hash gives equal hashes to doubles that compare equal, the two zeros included; for any other double it is the hash of the eight bytes of its IEEE 754 word. Byte rows that differ in one byte have different hashes. Different integers of one type have different hashes. Every hash fits in size_t.",
  "all doubles, all byte rows, all integer types of at most 64 bits",
  "a collision or a disagreement of hash and equality shows only for the keys concerned",
  ["mylib/mystl/functional.h:bitwise_hash","mylib/mystl/functional.h:hash"])
p("C152","Pairs are compared like words",
  "operator< of mystl::pair orders by the first members and by the second ones when those are equal; it is a total order when the members have one, and the other five operators agree with it.",
  "all pairs of members with a total order and its equality",
  "a comparison that breaks the order corrupts containers only for particular sets of keys",
  ["mylib/mystl/util.h:operator==","mylib/mystl/util.h:operator<"])
p("C153","The timetable of an eclipse shows each contact at its time",
  "rysCalc gives the tables of a solar eclipse within 3 degrees of conjunction, those of a lunar eclipse within 10 degrees of opposition, and never both. Each timetable has one line for every contact whose time is not zero, in order, with its name, date and time to half a second in the time asked for. A time given in local time and made Dynamical Time comes back as it was. Each limit has a line with its degrees, or none.",
  "all contact times within 2000000 days of J2000, all functions dt_T with values of at most 100 days, all elongations",
  "exchanged names and wrong signs of the shift show only for eclipses of one kind or for one time scale",
  ["eph/eph_show.cpp:rysCalc","mylib/tool.cpp:JD2str"])
p("C154","The table of the equation of time shows each day with its date, minutes and seconds",
  "shengjiang3 gives its heading and 368 rows. Row i has the civil date of the day i days after 1 January of the year, and the equation of time of that day's noon in Beijing as sign, whole minutes and seconds under 60, which add up to 86400 times the number of days to 1e-8 second.",
  "all years from -4716 to 5000 within 999000 days of J2000, all library functions as accurate as C143 asks",
  "a date that is wrong on one day of a leap year or of October 1582, or minutes and seconds that do not add up near a full minute, show in a few of the rows of a few years",
  ["eph/eph_show.cpp:shengjiang3","mylib/tool.cpp:m2fm","mylib/tool.cpp:JD2str"])
p("C155","The text of the places of Sun and Moon shows each number under its label",
  "MSC::toStr always gives a text. Under each label it has the value of the Moon, then that of the Sun: angles with sign, degrees or hours, minutes below 60 and seconds right to half a hundredth, radii and the equation of time as minutes and seconds below 60 that add up, solar times to half a second, nutation in seconds of arc, the lit part in percent. The lines of Dynamical Time, nutation and obliquity are there exactly if asked for.",
  "all finite members: angles of at most 17 radians, moments of at most 2000000 days from J2000 (solar times 4000000), equation of time and lit part of at most 1, nutation of at most 1 radian",
  "exchanged members of Sun and Moon give plausible texts; carries into full minutes show for few values",
  ["eph/eph_msc.cpp:MSC::toStr","mylib/tool.cpp:rad2str","mylib/tool.cpp:m2fm"])
p("C156","The overview of a solar eclipse shows each point with its moment and place",
  "rs2_calc gives for one eclipse the begin and end of the partial and of the central eclipse and the eclipse at noon, in the order of time, each with its own moment to half a second and its longitude and latitude to half a minute of arc, and under the next heading the numbers of the center, each under its label. The line of noon is there exactly if the axis meets the Earth then. The lines of the central eclipse are there only if it is central.",
  "all features with finite members: angles of at most 17 radians, moments within 2000000 days of J2000, durations of at most 1000 days",
  "exchanged points give plausible texts, and the lines of a missing central eclipse show only for partial eclipses",
  ["eph/eph_show.cpp:rs2_calc","mylib/tool.cpp:rad2str2","eph/eph_rsgs.cpp:RS_GS::feature"])
p("C157","The table of limits of a solar eclipse has a row for every minute with a limit",
  "RS_GS::jieX3 gives its heading and then, for each of the 360 minutes from three hours before the minute of the middle of the eclipse on, a row exactly if at least one of the five limits exists then. The row has the moment, right to a hundredth of a second before it is rounded to a second although the minutes are added up in doubles, and the five limits in the order of the heading, each with longitude and latitude to half a minute of arc or with dashes if it does not exist.",
  "all moments within 1999990 days of J2000, all limits with coordinates of at most 17 radians or the mark 100",
  "a sum of 360 rounded steps drifts differently for each start; limits in the wrong column show only for eclipses where some of them are missing",
  ["eph/eph_rsgs.cpp:RS_GS::jieX3","mylib/tool.cpp:rad2str2","mylib/tool.cpp:JD2str"])
p("C158","The text of the place of a body shows each number under its label",
  "xingX gives for a planet, the Sun or the Moon a text in which every coordinate stands under its own label: right ascensions and sidereal times in hours, all other angles in degrees, with minutes and seconds right to half a hundredth, distances with 8 decimals, for the Moon with 2. The line of the heliocentric place is there exactly for the bodies other than the Moon. For a number that names no body no uninitialised number is printed.",
  "all numbers of bodies, all finite numbers to show with angles of at most 17 radians",
  "an angle in the wrong unit or under the wrong label is a plausible text",
  ["eph/eph.cpp:xingX","mylib/tool.cpp:rad2str"])
p("C159","The radii, distances, duration and magnitude shown for an eclipse are those of the discs",
  "The first lines of rysCalc show under their labels, as sign, whole minutes of arc and the seconds left with 2 decimals, for a solar eclipse the radii of Sun and Moon, the distance of their centers, the sum and the difference of the radii and the distance less the sum; for a lunar eclipse the radii of umbra, penumbra and Moon, the distance of the centers, the sum of the radii of Moon and umbra, and the distance less the sum of the radii of the Moon and umbra, and of the Moon and penumbra. The place of the axis of the shadow is shown in degrees with 5 decimals; if the axis misses the Earth, the text says so. The lines after the timetable show for a solar eclipse the duration in minutes and seconds, the magnitude and the ratio of the radii, for a lunar eclipse the magnitude, each under its label.",
  "all finite radii and distances of at most 1000000 seconds of arc, all places of the axis of at most 17 radians or marked as missing, all durations of at most a day, all finite magnitudes and ratios",
  "a difference taken of the wrong radii shows contact at a wrong moment",
  ["eph/eph_show.cpp:rysCalc","mylib/tool.cpp:m2fm"])
out=os.path.join(os.path.dirname(os.path.dirname(os.path.abspath(__file__))),"properties.jsonl")
with open(out,"w") as f:
    for x in P: f.write(json.dumps(x,ensure_ascii=False)+"\n")
print(len(P))
