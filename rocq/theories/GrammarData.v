(** The definitions the engine is compiled with: the name and the grammar of each value type, copied from
    crates/gosub_css3/resources/definitions/definitions_values.json, and the name, the grammar, the entry "computed" and the entry
    "inherited" of each property, copied from definitions_properties.json beside it, in the order of the files.
    Written by a script; the entry "initial" of a property is left out, see [GrammarModel]. *)
From Coq Require Import String List.
Import ListNotations.
Local Open Scope string_scope.

Definition value_texts : list (string * string) := [
  ("<a-n-plus-b>", "odd | even | <integer> | <n-dimension> | '+'? n | -n | <ndashdigit-dimension> | '+'? <ndashdigit-ident> | <dashndashdigit-ident> | <n-dimension> <signed-integer> | '+'? n <signed-integer> | -n <signed-integer> | <ndash-dimension> <signless-integer> | '+'? n- <signless-integer> | -n- <signless-integer> | <n-dimension> ['+' | '-'] <signless-integer> | '+'? n ['+' | '-'] <signless-integer> | -n ['+' | '-'] <signless-integer>");
  ("<abs()>", "abs( <calc-sum> )");
  ("<absolute-size>", "[ xx-small | x-small | small | medium | large | x-large | xx-large | xxx-large ]");
  ("<acos()>", "acos( <calc-sum> )");
  ("<alpha-value>", "<number> | <percentage>");
  ("<an+b>", "odd | even | <integer> | <n-dimension> | '+'?† n | -n | <ndashdigit-dimension> | '+'?† <ndashdigit-ident> | <dashndashdigit-ident> | <n-dimension> <signed-integer> | '+'?† n <signed-integer> | -n <signed-integer> | <ndash-dimension> <signless-integer> | '+'?† n- <signless-integer> | -n- <signless-integer> | <n-dimension> ['+' | '-'] <signless-integer> | '+'?† n ['+' | '-'] <signless-integer> | -n ['+' | '-'] <signless-integer>");
  ("<anchor()>", "anchor( <anchor-name>? && <anchor-side>, <length-percentage>? )");
  ("<anchor-name>", "<dashed-ident>");
  ("<anchor-side>", "inside | outside | top | left | right | bottom | start | end | self-start | self-end | <percentage> | center");
  ("<anchor-size()>", "anchor-size( [ <anchor-name> || <anchor-size> ]? , <length-percentage>? )");
  ("<anchor-size>", "width | height | block | inline | self-block | self-inline");
  ("<angle-percentage>", "[ <angle> | <percentage> ]");
  ("<angular-color-hint>", "<angle-percentage> | <zero>");
  ("<angular-color-stop-list>", "<angular-color-stop> , [ <angular-color-hint>? , <angular-color-stop> ]#?");
  ("<angular-color-stop>", "<color> <color-stop-angle>?");
  ("<animateable-feature>", "scroll-position | contents | <custom-ident>");
  ("<animation-action>", "none | play | play-once | play-forwards | play-backwards | pause | reset | replay");
  ("<arc-command>", "arc <command-end-point> [ [ of <length-percentage>{1,2} ] && <arc-sweep>? && <arc-size>? && [rotate <angle>]? ]");
  ("<arc-size>", "large | small");
  ("<arc-sweep>", "cw | ccw");
  ("<asin()>", "asin( <calc-sum> )");
  ("<atan()>", "atan( <calc-sum> )");
  ("<atan2()>", "atan2( <calc-sum>, <calc-sum> )");
  ("<attachment>", "scroll | fixed | local");
  ("<attr()>", "attr( <attr-name> <attr-type>? , <declaration-value>? )");
  ("<attr-matcher>", "[ '~' | '|' | '^' | '$' | '*' ]? '='");
  ("<attr-modifier>", "i | s");
  ("<attr-type>", "type( <syntax> ) | raw-string | number | <attr-unit>");
  ("<attribute-selector>", "'[' <wq-name> ']' | '[' <wq-name> <attr-matcher> [ <string-token> | <ident-token> ] <attr-modifier>? ']'");
  ("<auto-line-color-list>", "<line-color-or-repeat>#? ',' <auto-repeat-line-color> ',' <line-color-or-repeat>#?");
  ("<auto-line-style-list>", "<line-style-or-repeat>#? ',' <auto-repeat-line-style> ',' <line-style-or-repeat>#?");
  ("<auto-line-width-list>", "<line-width-or-repeat>#? ',' <auto-repeat-line-width> ',' <line-width-or-repeat>#?");
  ("<auto-repeat-line-color>", "repeat( auto ',' [ <color> ]# )");
  ("<auto-repeat-line-style>", "repeat( auto ',' [ <line-style> ]# )");
  ("<auto-repeat-line-width>", "repeat( auto ',' [ <line-width> ]# )");
  ("<auto-repeat>", "repeat( [ auto-fill | auto-fit ] ',' [ <line-names>? <fixed-size> ]+ <line-names>? )");
  ("<auto-track-list>", "[ <line-names>? [ <fixed-size> | <fixed-repeat> ] ]* <line-names>? <auto-repeat> [ <line-names>? [ <fixed-size> | <fixed-repeat> ] ]* <line-names>?");
  ("<axis>", "block | inline | x | y");
  ("<base-descriptor>", "base-url ':' stylesheet | document | <url>");
  ("<baseline-metric>", "text-bottom | alphabetic | ideographic | middle | central | mathematical | hanging | text-top");
  ("<baseline-position>", "[ first | last ]? && baseline");
  ("<basic-shape-rect>", "<inset()> | <rect()> | <xywh()>");
  ("<basic-shape>", "<basic-shape-rect> | <circle()> | <ellipse()> | <polygon()> | <path()> | <shape()>");
  ("<bg-clip>", "<visual-box> | border-area | text");
  ("<bg-image>", "<image> | none");
  ("<bg-layer>", "<bg-image> || <bg-position> [ / <bg-size> ]? || <repeat-style> || <attachment> || <visual-box> || <visual-box>");
  ("<bg-position>", "[ [ left | center | right | top | bottom | <length-percentage> ] | [ left | center | right | <length-percentage> ] [ top | center | bottom | <length-percentage> ] | [ center | [ left | right ] <length-percentage>? ] && [ center | [ top | bottom ] <length-percentage>? ] ]");
  ("<bg-size>", "[ <length-percentage [0,∞]> | auto ]{1,2} | cover | contain");
  ("<blend-mode>", "normal | darken | multiply | color-burn | lighten | screen | color-dodge | overlay | soft-light | hard-light | difference | exclusion | hue | saturation | color | luminosity");
  ("<blur()>", "blur( <length>? )");
  ("<border-radius>", "<slash-separated-border-radius-syntax> | <legacy-border-radius-syntax>");
  ("<bottom>", "<length> | auto");
  ("<box-shadow-blur>", "<length [0,∞]>");
  ("<box-shadow-color>", "<color>");
  ("<box-shadow-position>", "[ outset | inset ]");
  ("<box-shadow-spread>", "<length>");
  ("<brightness()>", "brightness( [ <number> | <percentage> ]? )");
  ("<calc()>", "calc( <calc-sum> )");
  ("<calc-constant>", "e | pi | infinity | -infinity | NaN");
  ("<calc-keyword>", "e | pi | infinity | -infinity | NaN");
  ("<calc-product>", "<calc-value> [ [ '*' | / ] <calc-value> ]*");
  ("<calc-size()>", "calc-size( <calc-size-basis>, <calc-sum> )");
  ("<calc-size-basis>", "<intrinsic-size-keyword> | <calc-size()> | any | <calc-sum>");
  ("<calc-sum>", "<calc-product> [ [ '+' | '-' ] <calc-product> ]*");
  ("<calc-value>", "<number> | <dimension> | <percentage> | <calc-keyword> | '(' <calc-sum> ')'");
  ("<cf-final-image>", "<image> | <color>");
  ("<cf-mixing-image>", "<percentage>? && <image>");
  ("<circle()>", "circle( <radial-size>? [ at <position> ]? )");
  ("<clamp()>", "clamp( <calc-sum>#{3} )");
  ("<class-selector>", "'.' <ident-token>");
  ("<clip-source>", "<url>");
  ("<color()>", "color( [ from <color> ]? <colorspace-params> [ / [ <alpha-value> | none ] ]? )");
  ("<color-base>", "<hex-color> | <color-function> | <named-color> | transparent");
  ("<color-font-tech>", "[ color-COLRv0 | color-COLRv1 | color-SVG | color-sbix | color-CBDT ]");
  ("<color-function>", "<rgb()> | <rgba()> | <hsl()> | <hsla()> | <hwb()> | <lab()> | <lch()> | <oklab()> | <oklch()> | <ictcp()> | <jzazbz()> | <jzczhz()> | <alpha()> | <color()> | <hdr-color()>");
  ("<color-interpolation-method>", "in [ <rectangular-color-space> | <polar-color-space> <hue-interpolation-method>? ]");
  ("<color-mix()>", "color-mix( <color-interpolation-method> , [ <color> && <percentage [0,100]>? ]#{2})");
  ("<color-space>", "<rectangular-color-space> | <polar-color-space>");
  ("<color-stop-angle>", "[ <angle-percentage> | <zero> ]{1,2}");
  ("<color-stop-length>", "<length-percentage>{1,2}");
  ("<color-stop-list>", "<linear-color-stop> ',' [ <linear-color-hint>? ',' <linear-color-stop> ]#?");
  ("<color-stop>", "<color-stop-length> | <color-stop-angle>");
  ("<color>", "<color-base> | currentColor | <system-color>");
  ("<colorspace-params>", "[ <predefined-rgb-params> | <xyz-params>]");
  ("<combinator>", "'>' | '+' | '~'");
  ("<command-end-point>", "[ to <position> | by <coordinate-pair> ]");
  ("<common-lig-values>", "[ common-ligatures | no-common-ligatures ]");
  ("<compat-auto>", "searchfield | textarea | checkbox | radio | menulist | listbox | meter | progress-bar | button");
  ("<compat-special>", "textfield | menulist-button");
  ("<complex-real-selector-list>", "<complex-real-selector>#");
  ("<complex-real-selector>", "<compound-selector> [ <combinator>? <compound-selector> ]*");
  ("<complex-selector-list>", "<complex-selector>#");
  ("<complex-selector-unit>", "[ <compound-selector>? <pseudo-compound-selector>* ]!");
  ("<complex-selector>", "<complex-selector-unit> [ <combinator>? <complex-selector-unit> ]*");
  ("<composite-mode>", "clear | copy | source-over | destination-over | source-in | destination-in | source-out | destination-out | source-atop | destination-atop | xor | lighter | plus-darker | plus-lighter");
  ("<composite-style>", "clear | copy | source-over | source-in | source-out | source-atop | destination-over | destination-in | destination-out | destination-atop | xor");
  ("<compositing-operator>", "add | subtract | intersect | exclude");
  ("<compound-selector-list>", "<compound-selector>#");
  ("<compound-selector>", "[ <type-selector>? <subclass-selector>* ]!");
  ("<conic-gradient()>", "conic-gradient( [ <conic-gradient-syntax> ] )");
  ("<conic-gradient-syntax>", "[ [ [ from [ <angle> | <zero> ] ]? [ at <position> ]? ] || <color-interpolation-method> ]? , <angular-color-stop-list>");
  ("<container-condition>", "[ <container-name>? <container-query>? ]!");
  ("<container-name>", "<custom-ident>");
  ("<container-query>", "not <query-in-parens> | <query-in-parens> [ [ and <query-in-parens> ]* | [ or <query-in-parens> ]* ]");
  ("<content-distribution>", "space-between | space-around | space-evenly | stretch");
  ("<content-list>", "[ <string> | <image> | <attr()> | contents | <quote> | <leader()> | <target> | <string()> | <content()> | <counter> ]+");
  ("<content-position>", "center | start | end | flex-start | flex-end");
  ("<content-replacement>", "<image>");
  ("<contextual-alt-values>", "[ contextual | no-contextual ]");
  ("<contrast()>", "contrast( [ <number> | <percentage> ]? )");
  ("<control-point>", "[ <position> | <relative-control-point> ]");
  ("<coord-box>", "<paint-box> | view-box");
  ("<coordinate-pair>", "<length-percentage>{2}");
  ("<corner-shape-value>", "round | scoop | bevel | notch | square | squircle | <superellipse()>");
  ("<cos()>", "cos( <calc-sum> )");
  ("<counter()>", "counter( <counter-name>, <counter-style>? )");
  ("<counter-name>", "<custom-ident>");
  ("<counter-style-name>", "<custom-ident>");
  ("<counter-style>", "<counter-style-name> | <symbols()>");
  ("<counter>", "<counter()> | <counters()>");
  ("<counters()>", "counters( <counter-name>, <string>, <counter-style>? )");
  ("<cross-fade()>", "cross-fade( <cf-mixing-image> , <cf-final-image>? )");
  ("<css-type>", "<syntax-component> | <type()>");
  ("<cubic-bezier()>", "cubic-bezier( [ <number [0,1]>, <number> ]#{2} )");
  ("<cubic-bezier-easing-function>", "ease | ease-in | ease-out | ease-in-out | <cubic-bezier()>");
  ("<cursor-image>", "[ <url> | <url-set> ] <number>{2}?");
  ("<cursor-predefined>", "auto | default | none | context-menu | help | pointer | progress | wait | cell | crosshair | text | vertical-text | alias | copy | move | no-drop | not-allowed | grab | grabbing | e-resize | n-resize | ne-resize | nw-resize | s-resize | se-resize | sw-resize | w-resize | ew-resize | ns-resize | nesw-resize | nwse-resize | col-resize | row-resize | all-scroll | zoom-in | zoom-out");
  ("<curve-command>", "curve [ [ to <position> with <control-point> [ / <control-point> ]? ] | [ by <coordinate-pair> with <relative-control-point> [ / <relative-control-point> ]? ] ]");
  ("<custom-arg>", "'$' <ident-token>");
  ("<custom-color-space>", "<dashed-ident>");
  ("<custom-params>", "<dashed-ident> [ <number> | <percentage> | none ]+");
  ("<custom-selector>", "<custom-arg>? ':' <extension-name> [ '(' <custom-arg>+#? ')' ]?");
  ("<dasharray>", "[ [ <length-percentage> | <number> ]+ ]#");
  ("<dashndashdigit-ident>", "<ident-token>");
  ("<default-value>", "<declaration-value>");
  ("<deprecated-color>", "ActiveBorder | ActiveCaption | AppWorkspace | Background | ButtonHighlight | ButtonShadow | CaptionText | InactiveBorder | InactiveCaption | InactiveCaptionText | InfoBackground | InfoText | Menu | MenuText | Scrollbar | ThreeDDarkShadow | ThreeDFace | ThreeDHighlight | ThreeDLightShadow | ThreeDShadow | Window | WindowFrame | WindowText");
  ("<deprecated-system-color>", "ActiveBorder | ActiveCaption | AppWorkspace | Background | ButtonHighlight | ButtonShadow | CaptionText | InactiveBorder | InactiveCaption | InactiveCaptionText | InfoBackground | InfoText | Menu | MenuText | Scrollbar | ThreeDDarkShadow | ThreeDFace | ThreeDHighlight | ThreeDLightShadow | ThreeDShadow | Window | WindowFrame | WindowText");
  ("<discretionary-lig-values>", "[ discretionary-ligatures | no-discretionary-ligatures ]");
  ("<display-box>", "contents | none");
  ("<display-inside>", "flow | flow-root | table | flex | grid | ruby");
  ("<display-internal>", "table-row-group | table-header-group | table-footer-group | table-row | table-cell | table-column-group | table-column | table-caption | ruby-base | ruby-text | ruby-base-container | ruby-text-container");
  ("<display-legacy>", "inline-block | inline-table | inline-flex | inline-grid");
  ("<display-listitem>", "<display-outside>? && [ flow | flow-root ]? && list-item");
  ("<display-outside>", "block | inline | run-in");
  ("<drop-shadow()>", "drop-shadow( [ <color>? && <length>{2,3} ] )");
  ("<dynamic-range-limit-mix()>", "dynamic-range-limit-mix( [ <'dynamic-range-limit'> && <percentage [0,100]> ]#{2,} )");
  ("<easing-function>", "<linear-easing-function> | <cubic-bezier-easing-function> | <step-easing-function>");
  ("<east-asian-variant-values>", "[ jis78 | jis83 | jis90 | jis04 | simplified | traditional ]");
  ("<east-asian-width-values>", "[ full-width | proportional-width ]");
  ("<element()>", "element( <id-selector> )");
  ("<ellipse()>", "ellipse( <radial-size>? [ at <position> ]? )");
  ("<env()>", "env( <custom-ident> , <declaration-value>? )");
  ("<env-args>", "env( <declaration-value>, <declaration-value>? )");
  ("<event-trigger-event>", "activate | interest | click | touch | dblclick | keypress(<string>) | ...");
  ("<exp()>", "exp( <calc-sum> )");
  ("<explicit-track-list>", "[ <line-names>? <track-size> ]+ <line-names>?");
  ("<family-name>", "<string> | <custom-ident>+");
  ("<feature-tag-value>", "<opentype-tag> [ <integer [0,∞]> | on | off ]?");
  ("<feature-type>", "@stylistic | @historical-forms | @styleset | @character-variant | @swash | @ornaments | @annotation");
  ("<feature-value-block-list>", "<feature-value-block>+");
  ("<feature-value-block>", "<feature-type> '{' <feature-value-declaration-list> '}'");
  ("<feature-value-declaration-list>", "<feature-value-declaration>");
  ("<feature-value-declaration>", "<custom-ident>: <integer>+;");
  ("<feature-value-name>", "<custom-ident>");
  ("<filter-function>", "<blur()> | <brightness()> | <contrast()> | <drop-shadow()> | <grayscale()> | <hue-rotate()> | <invert()> | <opacity()> | <sepia()> | <saturate()>");
  ("<filter-value-list>", "[ <filter-function> | <url> ]+");
  ("<final-bg-layer>", "<bg-image> || <bg-position> [ / <bg-size> ]? || <repeat-style> || <attachment> || <visual-box> || <visual-box> || <'background-color'>");
  ("<fit-content()>", "fit-content( <length-percentage [0,∞]> )");
  ("<fixed-breadth>", "<length-percentage [0,∞]>");
  ("<fixed-repeat>", "repeat( [ <integer [1,∞]> ] ',' [ <line-names>? <fixed-size> ]+ <line-names>? )");
  ("<fixed-size>", "<fixed-breadth> | minmax( <fixed-breadth> ',' <track-breadth> ) | minmax( <inflexible-breadth> ',' <fixed-breadth> )");
  ("<font-family-name>", "<string> | <custom-ident>+");
  ("<font-feature-index>", "<integer>");
  ("<font-feature-value-name>", "<ident>");
  ("<font-features-tech>", "[ features-opentype | features-aat | features-graphite ]");
  ("<font-format>", "[ <string> | collection | embedded-opentype | opentype | svg | truetype | woff | woff2 ]");
  ("<font-src>", "<url> [ format( <font-format> ) ]? [ tech( <font-tech># ) ]? | local( <font-family-name> )");
  ("<font-stretch-absolute>", "normal | ultra-condensed | extra-condensed | condensed | semi-condensed | semi-expanded | expanded | extra-expanded | ultra-expanded | <percentage>");
  ("<font-tech>", "[ <font-features-tech> | <color-font-tech> | variations | palettes | incremental ]");
  ("<font-variant-css2>", "normal | small-caps");
  ("<font-weight-absolute>", "[ normal | bold | <number [1,1000]> ]");
  ("<font-width-css3>", "normal | ultra-condensed | extra-condensed | condensed | semi-condensed | semi-expanded | expanded | extra-expanded | ultra-expanded");
  ("<form-control-identifier>", "select");
  ("<frequency-percentage>", "[ <frequency> | <percentage> ]");
  ("<function-parameter>", "<custom-property-name> <css-type>? [ ':' <default-value> ]?");
  ("<gap-auto-repeat-rule>", "repeat( auto ',' <gap-rule># )");
  ("<gap-auto-rule-list>", "<gap-rule-or-repeat>#? ',' <gap-auto-repeat-rule> ',' <gap-rule-or-repeat>#?");
  ("<gap-repeat-rule>", "repeat( <integer [1,∞]> ',' <gap-rule># )");
  ("<gap-rule-list>", "<gap-rule-or-repeat>#");
  ("<gap-rule-or-repeat>", "<gap-rule> | <gap-repeat-rule>");
  ("<gap-rule>", "<line-width> || <line-style> || <color>");
  ("<general-enclosed>", "[ <function-token> <any-value>? ')' ] | [ '(' <any-value>? ')' ]");
  ("<generic-complete>", "serif | sans-serif | system-ui | cursive | fantasy | math | monospace");
  ("<generic-family>", "<generic-complete> | <generic-incomplete> | emoji | fangsong");
  ("<generic-font-complete>", "serif | sans-serif | system-ui | cursive | fantasy | math | monospace");
  ("<generic-font-family>", "<generic-font-script-specific>| <generic-font-complete> | <generic-font-incomplete>");
  ("<generic-font-incomplete>", "ui-serif | ui-sans-serif | ui-monospace | ui-rounded");
  ("<generic-font-script-specific>", "generic(fangsong) | generic(kai) | generic(khmer-mul) | generic(nastaliq)");
  ("<generic-incomplete>", "ui-serif | ui-sans-serif | ui-monospace | ui-rounded");
  ("<generic-voice>", "<age>? <gender> <integer [1,∞]>?");
  ("<geometry-box>", "<shape-box> | fill-box | stroke-box | view-box");
  ("<gradient>", "<linear-gradient()> | <repeating-linear-gradient()> | <radial-gradient()> | <repeating-radial-gradient()>");
  ("<grayscale()>", "grayscale( [ <number> | <percentage> ]? )");
  ("<grid-line>", "auto | <custom-ident> | [ [ <integer [-∞,-1]> | <integer [1,∞]> ] && <custom-ident>? ] | [ span && [ <integer [1,∞]> || <custom-ident> ] ]");
  ("<historical-lig-values>", "[ historical-ligatures | no-historical-ligatures ]");
  ("<horizontal-line-command>", "hline [ to [ <length-percentage> | left | center | right | x-start | x-end ] | by <length-percentage> ]");
  ("<hsl()>", "hsl( <hue>, <percentage>, <percentage>, <alpha-value>? ) | hsl( [ <hue> | none ] [ <percentage> | <number> | none ] [ <percentage> | <number> | none ] [ / [ <alpha-value> | none ] ]? )");
  ("<hsla()>", "hsla( <hue>, <percentage>, <percentage>, <alpha-value>? ) | hsla( [ <hue> | none ] [ <percentage> | <number> | none ] [ <percentage> | <number> | none ] [ / [ <alpha-value> | none ] ]? )");
  ("<hue-interpolation-method>", "[ shorter | longer | increasing | decreasing ] hue");
  ("<hue-rotate()>", "hue-rotate( [ <angle> | <zero> ]? )");
  ("<hue>", "<number> | <angle>");
  ("<hwb()>", "hwb( [ <hue> | none ] [ <percentage> | <number> | none ] [ <percentage> | <number> | none ] [ / [ <alpha-value> | none ] ]? )");
  ("<hypot()>", "hypot( <calc-sum># )");
  ("<id-selector>", "<hash-token>");
  ("<image()>", "image( <image-tags>? [ <image-src>? , <color>? ]! )");
  ("<image-set()>", "image-set( <image-set-option># )");
  ("<image-set-option>", "[ <image> | <string> ] [ <resolution> || type(<string>) ]");
  ("<image-src>", "<url> | <string>");
  ("<image-tags>", "ltr | rtl");
  ("<image>", "<url> | <gradient>");
  ("<import-conditions>", "[ supports( [ <supports-condition> | <declaration> ] ) ]? <media-query-list>?");
  ("<inflexible-breadth>", "<length-percentage [0,∞]> | min-content | max-content | auto");
  ("<init-descriptor-name>", "protocol | hostname | port | pathname | search | hash");
  ("<init-descriptor>", "<init-descriptor-name> ':' <string>");
  ("<inset()>", "inset( <length-percentage>{1,4} [ round <'border-radius'> ]? )");
  ("<inset-value>", "<length-percentage> | overlap-join");
  ("<integer>", "<number-token>");
  ("<invert()>", "invert( [ <number> | <percentage> ]? )");
  ("<isolation-mode>", "auto | isolate");
  ("<keyframe-block>", "<keyframe-selector># '{' <declaration-list> '}'");
  ("<keyframe-selector>", "from | to | <percentage [0,100]>");
  ("<keyframes-name>", "<custom-ident> | <string>");
  ("<lab()>", "lab( [<percentage> | <number> | none] [ <percentage> | <number> | none] [ <percentage> | <number> | none] [ / [<alpha-value> | none] ]? )");
  ("<layer()>", "layer( <layer-name> )");
  ("<layer-name>", "<ident> [ '.' <ident> ]*");
  ("<layout-box>", "<visual-box> | margin-box");
  ("<lch()>", "lch( [<percentage> | <number> | none] [ <percentage> | <number> | none] [ <hue> | none] [ / [<alpha-value> | none] ]? )");
  ("<leader()>", "leader( <leader-type> )");
  ("<leader-type>", "dotted | solid | space | <string>");
  ("<left>", "<length> | auto");
  ("<legacy-border-radius-syntax>", "<length-percentage [0,∞]>{1,2}");
  ("<legacy-hsl-syntax>", "hsl( <hue>, <percentage>, <percentage>, <alpha-value>? )");
  ("<legacy-hsla-syntax>", "hsla( <hue>, <percentage>, <percentage>, <alpha-value>? )");
  ("<legacy-pseudo-element-selector>", "':' [before | after | first-line | first-letter]");
  ("<legacy-rgb-syntax>", "rgb( <percentage>#{3} ',' <alpha-value>? ) | rgb( <number>#{3} ',' <alpha-value>? )");
  ("<legacy-rgba-syntax>", "rgba( <percentage>#{3} ',' <alpha-value>? ) | rgba( <number>#{3} ',' <alpha-value>? )");
  ("<length-percentage>", "[ <length> | <percentage> ]");
  ("<light-dark()>", "light-dark( <color>, <color> )");
  ("<line-color-list>", "<line-color-or-repeat>#");
  ("<line-color-or-repeat>", "[ <color> | <repeat-line-color> ]");
  ("<line-command>", "line <command-end-point>");
  ("<line-name-list>", "[ <line-names> | <name-repeat> ]+");
  ("<line-names>", "'[' <custom-ident>* ']'");
  ("<line-style-list>", "<line-style-or-repeat>#");
  ("<line-style-or-repeat>", "[ <line-style> | <repeat-line-style> ]");
  ("<line-style>", "none | hidden | dotted | dashed | solid | double | groove | ridge | inset | outset");
  ("<line-width-list>", "<line-width-or-repeat>#");
  ("<line-width-or-repeat>", "[ <line-width> | <repeat-line-width> ]");
  ("<line-width>", "<length [0,∞]> | hairline | thin | medium | thick");
  ("<linear()>", "linear( [ <number> && <percentage>{0,2} ]# )");
  ("<linear-color-hint>", "<length-percentage>");
  ("<linear-color-stop>", "<color> <length-percentage>?");
  ("<linear-easing-function>", "linear | <linear()>");
  ("<linear-gradient()>", "linear-gradient( [ <linear-gradient-syntax> ] )");
  ("<linear-gradient-syntax>", "[ <angle> | <zero> | to <side-or-corner> ]? ',' <color-stop-list>");
  ("<log()>", "log( <calc-sum>, <calc-sum>? )");
  ("<marker-ref>", "<url>");
  ("<mask-layer>", "<mask-reference> || <position> [ / <bg-size> ]? || <repeat-style> || <geometry-box> || [ <geometry-box> | no-clip ] || <compositing-operator> || <masking-mode>");
  ("<mask-position>", "[ <length-percentage> | left | center | right ] [ <length-percentage> | top | center | bottom ]?");
  ("<mask-reference>", "none | <image> | <mask-source>");
  ("<mask-source>", "<url>");
  ("<masking-mode>", "alpha | luminance | match-source");
  ("<matrix()>", "matrix( <number>#{6} )");
  ("<matrix3d()>", "matrix3d( <number>#{16} )");
  ("<max()>", "max( <calc-sum># )");
  ("<media-and>", "and <media-in-parens>");
  ("<media-condition-without-or>", "<media-not> | <media-in-parens> <media-and>*");
  ("<media-condition>", "<media-not> | <media-in-parens> [ <media-and>* | <media-or>* ]");
  ("<media-feature>", "[ <mf-plain> | <mf-boolean> | <mf-range> ]");
  ("<media-in-parens>", "'(' <media-condition> ')' | '(' <media-feature> ')' | <general-enclosed>");
  ("<media-not>", "not <media-in-parens>");
  ("<media-or>", "or <media-in-parens>");
  ("<media-query-list>", "<media-query>#");
  ("<media-query>", "<media-condition> | [ not | only ]? <media-type> [ and <media-condition-without-or> ]?");
  ("<media-type>", "<ident>");
  ("<mf-boolean>", "<mf-name>");
  ("<mf-comparison>", "<mf-lt> | <mf-gt> | <mf-eq>");
  ("<mf-eq>", "'='");
  ("<mf-gt>", "'>' '='?");
  ("<mf-lt>", "'<' '='?");
  ("<mf-name>", "<ident>");
  ("<mf-plain>", "<mf-name> ':' <mf-value>");
  ("<mf-range>", "<mf-name> <mf-comparison> <mf-value> | <mf-value> <mf-comparison> <mf-name> | <mf-value> <mf-lt> <mf-name> <mf-lt> <mf-value> | <mf-value> <mf-gt> <mf-name> <mf-gt> <mf-value>");
  ("<mf-value>", "<number> | <dimension> | <ident> | <ratio>");
  ("<min()>", "min( <calc-sum># )");
  ("<minmax()>", "minmax( [ <length-percentage> | min-content | max-content | auto ] , [ <length-percentage> | <flex> | min-content | max-content | auto ] )");
  ("<mod()>", "mod( <calc-sum>, <calc-sum> )");
  ("<modern-hsl-syntax>", "hsl( [<hue> | none] [<percentage> | <number> | none] [<percentage> | <number> | none] [ / [<alpha-value> | none] ]? )");
  ("<modern-hsla-syntax>", "hsla( [<hue> | none] [<percentage> | <number> | none] [<percentage> | <number> | none] [ / [<alpha-value> | none] ]? )");
  ("<modern-rgb-syntax>", "rgb( [ <number> | <percentage> | none]{3} [ / [<alpha-value> | none] ]? )");
  ("<modern-rgba-syntax>", "rgba( [ <number> | <percentage> | none]{3} [ / [<alpha-value> | none] ]? )");
  ("<move-command>", "move <command-end-point>");
  ("<mq-boolean>", "<integer [0,1]>");
  ("<n-dimension>", "<dimension-token>");
  ("<name-repeat>", "repeat( [ <integer [1,∞]> | auto-fill ], <line-names>+)");
  ("<named-color>", "aliceblue | antiquewhite | aqua | aquamarine | azure | beige | bisque | black | blanchedalmond | blue | blueviolet | brown | burlywood | cadetblue | chartreuse | chocolate | coral | cornflowerblue | cornsilk | crimson | cyan | darkblue | darkcyan | darkgoldenrod | darkgray | darkgreen | darkgrey | darkkhaki | darkmagenta | darkolivegreen | darkorange | darkorchid | darkred | darksalmon | darkseagreen | darkslateblue | darkslategray | darkslategrey | darkturquoise | darkviolet | deeppink | deepskyblue | dimgray | dimgrey | dodgerblue | firebrick | floralwhite | forestgreen | fuchsia | gainsboro | ghostwhite | gold | goldenrod | gray | green | greenyellow | grey | honeydew | hotpink | indianred | indigo | ivory | khaki | lavender | lavenderblush | lawngreen | lemonchiffon | lightblue | lightcoral | lightcyan | lightgoldenrodyellow | lightgray | lightgreen | lightgrey | lightpink | lightsalmon | lightseagreen | lightskyblue | lightslategray | lightslategrey | lightsteelblue | lightyellow | lime | limegreen | linen | magenta | maroon | mediumaquamarine | mediumblue | mediumorchid | mediumpurple | mediumseagreen | mediumslateblue | mediumspringgreen | mediumturquoise | mediumvioletred | midnightblue | mintcream | mistyrose | moccasin | navajowhite | navy | oldlace | olive | olivedrab | orange | orangered | orchid | palegoldenrod | palegreen | paleturquoise | palevioletred | papayawhip | peachpuff | peru | pink | plum | powderblue | purple | rebeccapurple | red | rosybrown | royalblue | saddlebrown | salmon | sandybrown | seagreen | seashell | sienna | silver | skyblue | slateblue | slategray | slategrey | snow | springgreen | steelblue | tan | teal | thistle | tomato | turquoise | violet | wheat | white | whitesmoke | yellow | yellowgreen | transparent");
  ("<namespace-prefix>", "<ident>");
  ("<navigation-condition>", "not <navigation-in-parens> | <navigation-in-parens> [ and <navigation-in-parens> ]* | <navigation-in-parens> [ or <navigation-in-parens> ]*");
  ("<navigation-in-parens>", "'(' <navigation-condition> ')' | '(' <navigation-test> ')' | <general-enclosed>");
  ("<navigation-location-between-test>", "between ':' <route-location> and <route-location>");
  ("<navigation-location-test>", "<navigation-relation> ':' <route-location>");
  ("<navigation-phase-keyword>", "loading | ready | committed");
  ("<navigation-phase-test>", "phase ':' <navigation-phase-keyword>");
  ("<navigation-relation>", "at | with | from | to");
  ("<navigation-test>", "<navigation-location-test> | <navigation-location-between-test> | <navigation-type-test> | <navigation-phase-test>");
  ("<navigation-type-keyword>", "traverse | back | forward | reload");
  ("<navigation-type-test>", "history ':' <navigation-type-keyword>");
  ("<ndash-dimension>", "<dimension-token>");
  ("<ndashdigit-dimension>", "<dimension-token>");
  ("<ndashdigit-ident>", "<ident-token>");
  ("<ns-prefix>", "[ <ident-token> | '*' ]? '|'");
  ("<number-optional-number>", "<number> <number>?");
  ("<number-percentage>", "<number> | <percentage>");
  ("<numeric-figure-values>", "[ lining-nums | oldstyle-nums ]");
  ("<numeric-fraction-values>", "[ diagonal-fractions | stacked-fractions ]");
  ("<numeric-spacing-values>", "[ proportional-nums | tabular-nums ]");
  ("<offset-path>", "<ray()> | <url> | <basic-shape>");
  ("<oklab()>", "oklab( [ <percentage> | <number> | none] [ <percentage> | <number> | none] [ <percentage> | <number> | none] [ / [<alpha-value> | none] ]? )");
  ("<oklch()>", "oklch( [ <percentage> | <number> | none] [ <percentage> | <number> | none] [ <hue> | none] [ / [<alpha-value> | none] ]? )");
  ("<opacity()>", "opacity( [ <number> | <percentage> ]? )");
  ("<opacity-value>", "<number> | <percentage>");
  ("<opentype-tag>", "<string>");
  ("<outline-line-style>", "none | auto | dotted | dashed | solid | double | groove | ridge | inset | outset");
  ("<outline-radius>", "<length> | <percentage>");
  ("<overflow-position>", "unsafe | safe");
  ("<page-body>", "<declaration>? [ ; <page-body> ]? | <page-margin-box> <page-body>");
  ("<page-margin-box-type>", "@top-left-corner | @top-left | @top-center | @top-right | @top-right-corner | @bottom-left-corner | @bottom-left | @bottom-center | @bottom-right | @bottom-right-corner | @left-top | @left-middle | @left-bottom | @right-top | @right-middle | @right-bottom");
  ("<page-margin-box>", "<page-margin-box-type> '{' <declaration-list> '}'");
  ("<page-selector-list>", "<page-selector>#");
  ("<page-selector>", "[ <ident-token>? <pseudo-page>* ]!");
  ("<page-size>", "A5 | A4 | A3 | B5 | B4 | JIS-B5 | JIS-B4 | letter | legal | ledger");
  ("<paint()>", "paint( <ident>, <declaration-value>? )");
  ("<paint-box>", "<visual-box> | fill-box | stroke-box");
  ("<paint>", "none | <image> | <svg-paint>");
  ("<palette-identifier>", "<dashed-ident>");
  ("<palette-mix()>", "palette-mix(<color-interpolation-method> , [ [normal | light | dark | <palette-identifier> | <palette-mix()> ] && <percentage [0,100]>? ]#{2})");
  ("<path()>", "path( <'fill-rule'>? , <string> )");
  ("<pattern-descriptor>", "pattern ':' <url-pattern()>");
  ("<perspective()>", "perspective( [ <length [0,∞]> | none ] )");
  ("<pointer-axis>", "block | inline | x | y");
  ("<pointer-source>", "root | nearest | self");
  ("<points>", "[ <number>+ ]#");
  ("<polar-color-space>", "hsl | hwb | lch | oklch");
  ("<polygon()>", "polygon( <'fill-rule'>? , [ <length-percentage> <length-percentage> ]# )");
  ("<position-area>", "[ [ left | center | right | span-left | span-right | x-start | x-end | span-x-start | span-x-end | self-x-start | self-x-end | span-self-x-start | span-self-x-end | span-all ] || [ top | center | bottom | span-top | span-bottom | y-start | y-end | span-y-start | span-y-end | self-y-start | self-y-end | span-self-y-start | span-self-y-end | span-all ] | [ block-start | center | block-end | span-block-start | span-block-end | span-all ] || [ inline-start | center | inline-end | span-inline-start | span-inline-end | span-all ] | [ self-block-start | center | self-block-end | span-self-block-start | span-self-block-end | span-all ] || [ self-inline-start | center | self-inline-end | span-self-inline-start | span-self-inline-end | span-all ] | [ start | center | end | span-start | span-end | span-all ]{1,2} | [ self-start | center | self-end | span-self-start | span-self-end | span-all ]{1,2} ]");
  ("<position>", "[ [ left | center | right | top | bottom | <length-percentage> ] | [ left | center | right ] && [ top | center | bottom ] | [ left | center | right | <length-percentage> ] [ top | center | bottom | <length-percentage> ] | [ [ left | right ] <length-percentage> ] && [ [ top | bottom ] <length-percentage> ] ]");
  ("<pow()>", "pow( <calc-sum>, <calc-sum> )");
  ("<predefined-rgb-params>", "<predefined-rgb> [ <number> | <percentage> | none ]{3}");
  ("<predefined-rgb>", "srgb | srgb-linear | display-p3 | display-p3-linear | a98-rgb | prophoto-rgb | rec2020 | rec2100-pq | rec2100-hlg | rec2100-linear");
  ("<pseudo-class-selector>", "':' <ident-token> | ':' <function-token> <any-value> ')'");
  ("<pseudo-compound-selector>", "<pseudo-element-selector> <pseudo-class-selector>*");
  ("<pseudo-element-selector>", "':' <pseudo-class-selector> | <legacy-pseudo-element-selector>");
  ("<pseudo-page>", "':' [ left | right | first | blank ]");
  ("<pt-class-selector>", "['.' <custom-ident>]+");
  ("<pt-name-and-class-selector>", "<pt-name-selector> <pt-class-selector>? | <pt-class-selector>");
  ("<pt-name-selector>", "'*' | <custom-ident>");
  ("<query-in-parens>", "( <container-query> ) | ( <size-feature> ) | style( <style-query> ) | scroll-state( <scroll-state-query> ) | <general-enclosed>");
  ("<quote>", "open-quote | close-quote | no-open-quote | no-close-quote");
  ("<radial-extent>", "closest-corner | closest-side | farthest-corner | farthest-side");
  ("<radial-gradient()>", "radial-gradient( [ <radial-gradient-syntax> ] )");
  ("<radial-gradient-syntax>", "[ <radial-shape> || <radial-size> ]? [ at <position> ]? ',' <color-stop-list>");
  ("<radial-shape>", "circle | ellipse");
  ("<radial-size>", "<radial-extent> | <length [0,∞]> | <length-percentage [0,∞]>{2}");
  ("<ratio>", "<number [0,∞]> [ / <number [0,∞]> ]?");
  ("<ray()>", "ray( <angle> && <ray-size>? && contain? && [at <position>]? )");
  ("<ray-size>", "<radial-extent> | sides");
  ("<rect()>", "rect( [ <length-percentage> | auto ]{4} [ round <'border-radius'> ]? )");
  ("<rectangular-color-space>", "srgb | srgb-linear | display-p3 | display-p3-linear | a98-rgb | prophoto-rgb | rec2020 | lab | oklab | <xyz-space>");
  ("<relative-control-point>", "<coordinate-pair> [ from [ start | end | origin ] ]?");
  ("<relative-real-selector-list>", "<relative-real-selector>#");
  ("<relative-real-selector>", "<combinator>? <complex-real-selector>");
  ("<relative-selector-list>", "<relative-selector>#");
  ("<relative-selector>", "<combinator>? <complex-selector>");
  ("<relative-size>", "[ larger | smaller ]");
  ("<rem()>", "rem( <calc-sum>, <calc-sum> )");
  ("<repeat-line-color>", "repeat( [ <integer [1,∞]> ] ',' [ <color> ]# )");
  ("<repeat-line-style>", "repeat( [ <integer [1,∞]> ] ',' [ <line-style> ]# )");
  ("<repeat-line-width>", "repeat( [ <integer [1,∞]> ] ',' [ <line-width> ]# )");
  ("<repeat-style>", "repeat-x | repeat-y | [repeat | space | round | no-repeat]{1,2}");
  ("<repeating-conic-gradient()>", "repeating-conic-gradient( [ <conic-gradient-syntax> ] )");
  ("<repeating-linear-gradient()>", "repeating-linear-gradient( [ <linear-gradient-syntax> ] )");
  ("<repeating-radial-gradient()>", "repeating-radial-gradient( [ <radial-gradient-syntax> ] )");
  ("<reversed-counter-name>", "reversed( <counter-name> )");
  ("<rgb()>", "rgb( <percentage>#{3} , <alpha-value>? ) | rgb( <number>#{3} , <alpha-value>? ) | rgb( [ <number> | <percentage> | none ]{3} [ / [ <alpha-value> | none ] ]? )");
  ("<rgba()>", "rgba( <percentage>#{3} , <alpha-value>? ) | rgba( <number>#{3} , <alpha-value>? ) | rgba( [ <number> | <percentage> | none ]{3} [ / [ <alpha-value> | none ] ]? )");
  ("<right>", "<length> | auto");
  ("<rotate()>", "rotate( [ <angle> | <zero> ] )");
  ("<rotate3d()>", "rotate3d( <number> , <number> , <number> , [ <angle> | <zero> ] )");
  ("<rotateX()>", "rotateX( [ <angle> | <zero> ] )");
  ("<rotateY()>", "rotateY( [ <angle> | <zero> ] )");
  ("<rotateZ()>", "rotateZ( [ <angle> | <zero> ] )");
  ("<round()>", "round( <rounding-strategy>?, <calc-sum>, <calc-sum> )");
  ("<rounding-strategy>", "nearest | up | down | to-zero | line-width");
  ("<route-descriptor>", "<pattern-descriptor> | <init-descriptor> | <base-descriptor>");
  ("<route-location>", "<url> | [ <route-name> | <url-pattern()> ]");
  ("<route-name>", "<dashed-ident>");
  ("<route-rule>", "@route <dashed-ident> '{' <declaration-list> '}'");
  ("<saturate()>", "saturate( [ <number> | <percentage> ]? )");
  ("<scale()>", "scale( [ <number> | <percentage> ]#{1,2} )");
  ("<scale3d()>", "scale3d( [ <number> | <percentage> ]#{3} )");
  ("<scaleX()>", "scaleX( [ <number> | <percentage> ] )");
  ("<scaleY()>", "scaleY( [ <number> | <percentage> ] )");
  ("<scaleZ()>", "scaleZ( [ <number> | <percentage> ] )");
  ("<scope-end>", "<selector-list>");
  ("<scope-start>", "<selector-list>");
  ("<scroll()>", "scroll( [ <scroller> || <axis> ]? )");
  ("<scroll-state-feature>", "<media-query-list>");
  ("<scroll-state-in-parens>", "( <scroll-state-query> ) | ( <scroll-state-feature> ) | <general-enclosed>");
  ("<scroll-state-query>", "not <scroll-state-in-parens> | <scroll-state-in-parens> [ [ and <scroll-state-in-parens> ]* | [ or <scroll-state-in-parens> ]* ] | <scroll-state-feature>");
  ("<scroller>", "root | nearest | self");
  ("<selector-list>", "<complex-selector-list>");
  ("<self-position>", "center | start | end | self-start | self-end | flex-start | flex-end");
  ("<sepia()>", "sepia( [ <number> | <percentage> ]? )");
  ("<shadow-t>", "[ <length>{2,3} && <color>? ]");
  ("<shadow>", "<color>? && [ <length>{2} [ <length [0,∞]> <length>? ]? ] && inset?");
  ("<shape-box>", "<visual-box> | margin-box | half-border-box");
  ("<shape-command>", "<move-command> | <line-command> | close | <horizontal-line-command> | <vertical-line-command> | <curve-command> | <smooth-command> | <arc-command>");
  ("<shape>", "rect(<top>, <right>, <bottom>, <left>)");
  ("<side-or-corner>", "[left | right] || [top | bottom]");
  ("<sign()>", "sign( <calc-sum> )");
  ("<signed-integer>", "<number-token>");
  ("<signless-integer>", "<number-token>");
  ("<simple-selector-list>", "<simple-selector>#");
  ("<simple-selector>", "<type-selector> | <subclass-selector>");
  ("<sin()>", "sin( <calc-sum> )");
  ("<single-animation-composition>", "replace | add | accumulate");
  ("<single-animation-direction>", "normal | reverse | alternate | alternate-reverse");
  ("<single-animation-fill-mode>", "none | forwards | backwards | both");
  ("<single-animation-iteration-count>", "infinite | <number [0,∞]>");
  ("<single-animation-play-state>", "running | paused");
  ("<single-animation-timeline>", "auto | none | <dashed-ident> | <scroll()> | <view()>");
  ("<single-animation>", "<time [0s,∞]> || <easing-function> || <time> || <single-animation-iteration-count> || <single-animation-direction> || <single-animation-fill-mode> || <single-animation-play-state> || [ none | <keyframes-name> ]");
  ("<single-transition-property>", "all | <custom-ident>");
  ("<single-transition>", "[ none | <single-transition-property> ] || <time> || <easing-function> || <time>");
  ("<size-feature>", "<media-query-list>");
  ("<size>", "closest-side | farthest-side | closest-corner | farthest-corner | <length> | <length-percentage>{2}");
  ("<skew()>", "skew( [ <angle> | <zero> ] , [ <angle> | <zero> ]? )");
  ("<skewX()>", "skewX( [ <angle> | <zero> ] )");
  ("<skewY()>", "skewY( [ <angle> | <zero> ] )");
  ("<slash-separated-border-radius-syntax>", "<length-percentage [0,∞]> [ / <length-percentage [0,∞]> ]?");
  ("<smooth-command>", "smooth [ [ to <position> [ with <control-point> ]? ] | [ by <coordinate-pair> [ with <relative-control-point> ]? ] ]");
  ("<source-size-list>", "<source-size>#? ',' <source-size-value>");
  ("<source-size-value>", "<length> | auto");
  ("<source-size>", "<media-condition> <source-size-value> | auto");
  ("<spread-shadow>", "<'box-shadow-color'>? && [ [ none | <length>{2} ] [ <'box-shadow-blur'> <'box-shadow-spread'>? ]? ] && <'box-shadow-position'>?");
  ("<sqrt()>", "sqrt( <calc-sum> )");
  ("<step-easing-function>", "step-start | step-end | <steps()>");
  ("<step-position>", "jump-start | jump-end | jump-none | jump-both | start | end");
  ("<steps()>", "steps( <integer>, <step-position>? )");
  ("<style-feature>", "<declaration>");
  ("<style-in-parens>", "( <style-query> ) | ( <style-feature> ) | <general-enclosed>");
  ("<style-query>", "not <style-in-parens> | <style-in-parens> [ [ and <style-in-parens> ]* | [ or <style-in-parens> ]* ] | <style-feature>");
  ("<subclass-selector>", "<id-selector> | <class-selector> | <attribute-selector> | <pseudo-class-selector>");
  ("<superellipse()>", "superellipse( [ <number> | infinity | -infinity ] )");
  ("<supports-condition>", "not <supports-in-parens> | <supports-in-parens> [ and <supports-in-parens> ]* | <supports-in-parens> [ or <supports-in-parens> ]*");
  ("<supports-decl>", "'(' <declaration> ')'");
  ("<supports-feature>", "<supports-decl>");
  ("<supports-in-parens>", "'(' <supports-condition> ')' | <supports-feature> | <general-enclosed>");
  ("<supports-selector-fn>", "selector( <complex-selector> )");
  ("<svg-paint>", "child | child( <integer> )");
  ("<symbol>", "<string> | <image> | <custom-ident>");
  ("<symbols()>", "symbols( <symbols-type>? [ <string> | <image> ]+ )");
  ("<symbols-type>", "cyclic | numeric | alphabetic | symbolic | fixed");
  ("<system-color>", "AccentColor | AccentColorText | ActiveText | ButtonBorder | ButtonFace | ButtonText | Canvas | CanvasText | Field | FieldText | GrayText | Highlight | HighlightText | LinkText | Mark | MarkText | SelectedItem | SelectedItemText | VisitedText | <deprecated-color>");
  ("<system-family-name>", "caption | icon | menu | message-box | small-caption | status-bar");
  ("<system-font-family-name>", "caption | icon | menu | message-box | small-caption | status-bar");
  ("<tan()>", "tan( <calc-sum> )");
  ("<target-counter()>", "target-counter( [ <string> | <url> ] , <custom-ident> , <counter-style>? )");
  ("<target-counters()>", "target-counters( [ <string> | <url> ] , <custom-ident> , <string> , <counter-style>? )");
  ("<target-text()>", "target-text( [ <string> | <url> ] , [ content | before | after | first-letter ]? )");
  ("<target>", "<target-counter()> | <target-counters()> | <target-text()>");
  ("<text-edge>", "[ text | ideographic | ideographic-ink ] | [ text | ideographic | ideographic-ink | cap | ex ] [ text | ideographic | ideographic-ink | alphabetic ]");
  ("<time-percentage>", "[ <time> | <percentage> ]");
  ("<timeline-range-name>", "cover | contain | entry | exit | entry-crossing | exit-crossing");
  ("<top>", "<length> | auto");
  ("<track-breadth>", "<length-percentage [0,∞]> | <flex [0,∞]> | min-content | max-content | auto");
  ("<track-list>", "[ <line-names>? [ <track-size> | <track-repeat> ] ]+ <line-names>?");
  ("<track-repeat>", "repeat( [ <integer [1,∞]> ] ',' [ <line-names>? <track-size> ]+ <line-names>? )");
  ("<track-size>", "<track-breadth> | minmax( <inflexible-breadth> ',' <track-breadth> ) | fit-content( <length-percentage [0,∞]> )");
  ("<transform-function>", "<matrix()> | <translate()> | <translateX()> | <translateY()> | <scale()> | <scaleX()> | <scaleY()> | <rotate()> | <skew()> | <skewX()> | <skewY()> | <matrix3d()> | <translate3d()> | <translateZ()> | <scale3d()> | <scaleZ()> | <rotate3d()> | <rotateX()> | <rotateY()> | <rotateZ()> | <perspective()>");
  ("<transform-list>", "<transform-function>+");
  ("<transition-behavior-value>", "normal | allow-discrete");
  ("<translate()>", "translate( <length-percentage> , <length-percentage>? )");
  ("<translate3d()>", "translate3d( <length-percentage> , <length-percentage> , <length> )");
  ("<translateX()>", "translateX( <length-percentage> )");
  ("<translateY()>", "translateY( <length-percentage> )");
  ("<translateZ()>", "translateZ( <length> )");
  ("<try-size>", "most-width | most-height | most-block-size | most-inline-size");
  ("<try-tactic>", "flip-block || flip-inline || flip-start || flip-x || flip-y");
  ("<type-or-unit>", "string | color | url | integer | number | length | angle | time | frequency | cap | ch | em | ex | ic | lh | rlh | rem | vb | vi | vw | vh | vmin | vmax | mm | Q | cm | in | pt | pc | px | deg | grad | rad | turn | ms | s | Hz | kHz | %");
  ("<type-selector>", "<wq-name> | <ns-prefix>? '*'");
  ("<type>", "'<' [ number | string ] '>'");
  ("<url>", "<url()> | <src()>");
  ("<var()>", "var( <custom-property-name> , <declaration-value>? )");
  ("<var-args>", "var( <declaration-value> ',' <declaration-value>? )");
  ("<vertical-line-command>", "vline [ to [ <length-percentage> | top | center | bottom | y-start | y-end ] | by <length-percentage> ]");
  ("<view()>", "view([<axis> || <'view-timeline-inset'>]?)");
  ("<viewport-length>", "auto | <length-percentage>");
  ("<visual-box>", "content-box | padding-box | border-box");
  ("<wq-name>", "<ns-prefix>? <ident-token>");
  ("<xywh()>", "xywh( <length-percentage>{2} <length-percentage [0,∞]>{2} [ round <'border-radius'> ]? )");
  ("<xyz-params>", "<xyz-space> [ <number> | <percentage> | none ]{3}");
  ("<xyz-space>", "xyz | xyz-d50 | xyz-d65");
  ("<xyz>", "xyz | xyz-d50 | xyz-d65");
  ("abs()", "abs( <calc-sum> )");
  ("acos()", "acos( <calc-sum> )");
  ("anchor()", "anchor( <anchor-name>? && <anchor-side>, <length-percentage>? )");
  ("anchor-size()", "anchor-size( [ <anchor-name> || <anchor-size> ]? ',' <length-percentage>? )");
  ("asin()", "asin( <calc-sum> )");
  ("atan()", "atan( <calc-sum> )");
  ("atan2()", "atan2( <calc-sum>, <calc-sum> )");
  ("blur()", "blur( <length>? )");
  ("brightness()", "brightness( [ <number> | <percentage> ]? )");
  ("calc()", "calc( <calc-sum> )");
  ("circle()", "circle( <radial-size>? [ at <position> ]? )");
  ("clamp()", "clamp( [ <calc-sum> | none ], <calc-sum>, [ <calc-sum> | none ] )");
  ("color()", "color( <colorspace-params> [ / [ <alpha-value> | none ] ]? )");
  ("content()", "content( [ text | before | after | first-letter | marker ]? )");
  ("contrast()", "contrast( [ <number> | <percentage> ]? )");
  ("control-value()", "control-value( <type>? )");
  ("cos()", "cos( <calc-sum> )");
  ("counter()", "counter( <counter-name>, <counter-style>? )");
  ("counters()", "counters( <counter-name>, <string>, <counter-style>? )");
  ("cubic-bezier()", "cubic-bezier( [ <number [0,1]>, <number> ]#{2} )");
  ("drop-shadow()", "drop-shadow( [ <color>? && <length>{2,3} ] )");
  ("dynamic-range-limit-mix()", "dynamic-range-limit-mix( [ <'dynamic-range-limit'> && <percentage [0,100]> ]#{2,} )");
  ("ellipse()", "ellipse( <radial-size>? [ at <position> ]? )");
  ("env()", "env( <custom-ident> <integer [0,∞]>*, <declaration-value>? )");
  ("exp()", "exp( <calc-sum> )");
  ("filter()", "filter( [ <image> | <string> ], <filter-value-list> )");
  ("fit-content()", "fit-content(<length-percentage [0,∞]>)");
  ("grayscale()", "grayscale( [ <number> | <percentage> ]? )");
  ("hdr-color()", "color-hdr([ <color> && <number [0,∞]>? ]#{2})");
  ("hsl()", "[ <legacy-hsl-syntax> | <modern-hsl-syntax> ]");
  ("hsla()", "[ <legacy-hsla-syntax> | <modern-hsla-syntax> ]");
  ("hue-rotate()", "hue-rotate( [ <angle> | <zero> ]? )");
  ("hwb()", "hwb( [<hue> | none] [<percentage> | <number> | none] [<percentage> | <number> | none] [ / [<alpha-value> | none] ]? )");
  ("hypot()", "hypot( <calc-sum># )");
  ("ictcp()", "ictcp([from <color>]? [<percentage> | <number> | none] [<percentage> | <number> | none] [<percentage> | <number> | none] [ / [<alpha-value> | none] ]? )");
  ("inset()", "inset( <length-percentage>{1,4} [ round <'border-radius'> ]? )");
  ("invert()", "invert( [ <number> | <percentage> ]? )");
  ("jzazbz()", "jzazbz([from <color>]? [<percentage> | <number> | none] [<percentage> | <number> | none] [<percentage> | <number> | none] [ / [<alpha-value> | none] ]? )");
  ("jzczhz()", "jzczhz([from <color>]? [<percentage> | <number> | none] [<percentage> | <number> | none] [<hue> | none] [ / [<alpha-value> | none] ]? )");
  ("lab()", "lab( [<percentage> | <number> | none] [ <percentage> | <number> | none] [ <percentage> | <number> | none] [ / [<alpha-value> | none] ]? )");
  ("lch()", "lch( [<percentage> | <number> | none] [ <percentage> | <number> | none] [ <hue> | none] [ / [<alpha-value> | none] ]? )");
  ("leader()", "leader( <leader-type> )");
  ("linear()", "linear( [ <number> && <percentage>{0,2} ]# )");
  ("linear-gradient()", "linear-gradient( [ <linear-gradient-syntax> ] )");
  ("log()", "log( <calc-sum>, <calc-sum>? )");
  ("matrix()", "matrix( <number>#{6} )");
  ("max()", "max( <calc-sum># )");
  ("min()", "min( <calc-sum># )");
  ("minmax()", "minmax(min, max)");
  ("mod()", "mod( <calc-sum>, <calc-sum> )");
  ("oklab()", "oklab( [ <percentage> | <number> | none] [ <percentage> | <number> | none] [ <percentage> | <number> | none] [ / [<alpha-value> | none] ]? )");
  ("oklch()", "oklch( [ <percentage> | <number> | none] [ <percentage> | <number> | none] [ <hue> | none] [ / [<alpha-value> | none] ]? )");
  ("opacity()", "opacity( [ <number> | <percentage> ]? )");
  ("paint()", "paint( <ident>, <declaration-value>? )");
  ("palette-mix()", "palette-mix(<color-interpolation-method> ',' [ [normal | light | dark | <palette-identifier> | <palette-mix()> ] && <percentage [0,100]>? ]#{2})");
  ("param()", "param( <dashed-ident> ',' <declaration-value>? )");
  ("path()", "path( <'fill-rule'>? ',' <string> )");
  ("pointer()", "pointer( [ <pointer-source> || <pointer-axis> ]? )");
  ("polygon()", "polygon( <'fill-rule'>? [ round <length> ]? ',' [<length-percentage> <length-percentage>]# )");
  ("pow()", "pow( <calc-sum>, <calc-sum> )");
  ("radial-gradient()", "radial-gradient( [ <radial-gradient-syntax> ] )");
  ("ray()", "ray( <angle> && <ray-size>? && contain? && [at <position>]? )");
  ("rect()", "rect( [ <length-percentage> | auto ]{4} [ round <'border-radius'> ]? )");
  ("rem()", "rem( <calc-sum>, <calc-sum> )");
  ("repeating-linear-gradient()", "repeating-linear-gradient( [ <linear-gradient-syntax> ] )");
  ("repeating-radial-gradient()", "repeating-radial-gradient( [ <radial-gradient-syntax> ] )");
  ("rgb()", "[ <legacy-rgb-syntax> | <modern-rgb-syntax> ]");
  ("rgba()", "[ <legacy-rgba-syntax> | <modern-rgba-syntax> ]");
  ("rotate()", "rotate( [ <angle> | <zero> ] )");
  ("round()", "round( <rounding-strategy>?, <calc-sum>, <calc-sum>? )");
  ("running()", "running( <custom-ident> )");
  ("saturate()", "saturate( [ <number> | <percentage> ]? )");
  ("scale()", "scale( <number> ',' <number>? )");
  ("scaleX()", "scaleX( <number> )");
  ("scaleY()", "scaleY( <number> )");
  ("scroll()", "scroll( [ <scroller> || <axis> ]? )");
  ("sepia()", "sepia( [ <number> | <percentage> ]? )");
  ("shape()", "shape( <'fill-rule'>? from <position> ',' <shape-command># )");
  ("sign()", "sign( <calc-sum> )");
  ("sin()", "sin( <calc-sum> )");
  ("skew()", "skew( [ <angle> | <zero> ] ',' [ <angle> | <zero> ]? )");
  ("skewX()", "skewX( [ <angle> | <zero> ] )");
  ("skewY()", "skewY( [ <angle> | <zero> ] )");
  ("snap-block()", "snap-block( <length> ',' [ start | end | near ]? )");
  ("snap-inline()", "snap-inline( <length> ',' [ left | right | near ]? )");
  ("sqrt()", "sqrt( <calc-sum> )");
  ("src()", "src( <string> <url-modifier>* )");
  ("steps()", "steps( <integer>, <step-position>?)");
  ("string()", "string( <custom-ident> ',' [ first | start | last | first-except ]? )");
  ("superellipse()", "superellipse(<number> | infinity | -infinity)");
  ("symbols()", "symbols( <symbols-type>? [ <string> | <image> ]+ )");
  ("tan()", "tan( <calc-sum> )");
  ("target-counter()", "target-counter( [ <string> | <url> ] ',' <custom-ident> ',' <counter-style>? )");
  ("target-counters()", "target-counters( [ <string> | <url> ] ',' <custom-ident> ',' <string> ',' <counter-style>? )");
  ("target-text()", "target-text( [ <string> | <url> ] ',' [ content | before | after | first-letter ]? )");
  ("translate()", "translate( <length-percentage> ',' <length-percentage>? )");
  ("translateX()", "translateX( <length-percentage> )");
  ("translateY()", "translateY( <length-percentage> )");
  ("url()", "url( <string> <url-modifier>* ) | <url-token>");
  ("url-pattern()", "url-pattern( <string> )");
  ("var()", "var( <custom-property-name> ',' <declaration-value>? )");
  ("view()", "view( [ <axis> || <'view-timeline-inset'> ]? )");
  ("xywh()", "xywh( <length-percentage>{2} <length-percentage [0,∞]>{2} [ round <'border-radius'> ]? )")].

Definition property_texts : list (string * string * list string * bool) := [
  ("--*", "<declaration-value>", ["asSpecifiedWithVarsSubstituted"], true);
  ("-moz-appearance", "none | button | button-arrow-down | button-arrow-next | button-arrow-previous | button-arrow-up | button-bevel | button-focus | caret | checkbox | checkbox-container | checkbox-label | checkmenuitem | dualbutton | groupbox | listbox | listitem | menuarrow | menubar | menucheckbox | menuimage | menuitem | menuitemtext | menulist | menulist-button | menulist-text | menulist-textfield | menupopup | menuradio | menuseparator | meterbar | meterchunk | progressbar | progressbar-vertical | progresschunk | progresschunk-vertical | radio | radio-container | radio-label | radiomenuitem | range | range-thumb | resizer | resizerpanel | scale-horizontal | scalethumbend | scalethumb-horizontal | scalethumbstart | scalethumbtick | scalethumb-vertical | scale-vertical | scrollbarbutton-down | scrollbarbutton-left | scrollbarbutton-right | scrollbarbutton-up | scrollbarthumb-horizontal | scrollbarthumb-vertical | scrollbartrack-horizontal | scrollbartrack-vertical | searchfield | separator | sheet | spinner | spinner-downbutton | spinner-textfield | spinner-upbutton | splitter | statusbar | statusbarpanel | tab | tabpanel | tabpanels | tab-scroll-arrow-back | tab-scroll-arrow-forward | textfield | textfield-multiline | toolbar | toolbarbutton | toolbarbutton-dropdown | toolbargripper | toolbox | tooltip | treeheader | treeheadercell | treeheadersortarrow | treeitem | treeline | treetwisty | treetwistyopen | treeview | -moz-mac-unified-toolbar | -moz-win-borderless-glass | -moz-win-browsertabbar-toolbox | -moz-win-communicationstext | -moz-win-communications-toolbox | -moz-win-exclude-glass | -moz-win-glass | -moz-win-mediatext | -moz-win-media-toolbox | -moz-window-button-box | -moz-window-button-box-maximized | -moz-window-button-close | -moz-window-button-maximize | -moz-window-button-minimize | -moz-window-button-restore | -moz-window-frame-bottom | -moz-window-frame-left | -moz-window-frame-right | -moz-window-titlebar | -moz-window-titlebar-maximized", ["asSpecified"], false);
  ("-moz-binding", "<url> | none", ["asSpecified"], false);
  ("-moz-border-bottom-colors", "<color>+ | none", ["asSpecified"], false);
  ("-moz-border-left-colors", "<color>+ | none", ["asSpecified"], false);
  ("-moz-border-right-colors", "<color>+ | none", ["asSpecified"], false);
  ("-moz-border-top-colors", "<color>+ | none", ["asSpecified"], false);
  ("-moz-context-properties", "none | [ fill | fill-opacity | stroke | stroke-opacity ]#", ["asSpecified"], true);
  ("-moz-float-edge", "border-box | content-box | margin-box | padding-box", ["asSpecified"], false);
  ("-moz-force-broken-image-icon", "0 | 1", ["asSpecified"], false);
  ("-moz-orient", "inline | block | horizontal | vertical", ["asSpecified"], false);
  ("-moz-outline-radius", "<outline-radius>{1,4} [ / <outline-radius>{1,4} ]?", ["-moz-outline-radius-topleft"; "-moz-outline-radius-topright"; "-moz-outline-radius-bottomright"; "-moz-outline-radius-bottomleft"], false);
  ("-moz-outline-radius-bottomleft", "<outline-radius>", ["asSpecified"], false);
  ("-moz-outline-radius-bottomright", "<outline-radius>", ["asSpecified"], false);
  ("-moz-outline-radius-topleft", "<outline-radius>", ["asSpecified"], false);
  ("-moz-outline-radius-topright", "<outline-radius>", ["asSpecified"], false);
  ("-moz-stack-sizing", "ignore | stretch-to-fit", ["asSpecified"], true);
  ("-moz-text-blink", "none | blink", ["asSpecified"], false);
  ("-moz-user-focus", "ignore | normal | select-after | select-before | select-menu | select-same | select-all | none", ["asSpecified"], false);
  ("-moz-user-input", "auto | none | enabled | disabled", ["asSpecified"], true);
  ("-moz-user-modify", "read-only | read-write | write-only", ["asSpecified"], true);
  ("-moz-window-dragging", "drag | no-drag", ["asSpecified"], false);
  ("-moz-window-shadow", "default | menu | tooltip | sheet | none", ["asSpecified"], false);
  ("-ms-accelerator", "false | true", ["asSpecified"], false);
  ("-ms-block-progression", "tb | rl | bt | lr", ["asSpecified"], false);
  ("-ms-content-zoom-chaining", "none | chained", ["asSpecified"], false);
  ("-ms-content-zoom-limit", "<'-ms-content-zoom-limit-min'> <'-ms-content-zoom-limit-max'>", ["-ms-content-zoom-limit-max"; "-ms-content-zoom-limit-min"], false);
  ("-ms-content-zoom-limit-max", "<percentage>", ["asSpecified"], false);
  ("-ms-content-zoom-limit-min", "<percentage>", ["asSpecified"], false);
  ("-ms-content-zoom-snap", "<'-ms-content-zoom-snap-type'> || <'-ms-content-zoom-snap-points'>", ["-ms-content-zoom-snap-type"; "-ms-content-zoom-snap-points"], false);
  ("-ms-content-zoom-snap-points", "snapInterval( <percentage>, <percentage> ) | snapList( <percentage># )", ["asSpecified"], false);
  ("-ms-content-zoom-snap-type", "none | proximity | mandatory", ["asSpecified"], false);
  ("-ms-content-zooming", "none | zoom", ["asSpecified"], false);
  ("-ms-filter", "<string>", ["asSpecified"], false);
  ("-ms-flow-from", "[ none | <custom-ident> ]#", ["asSpecified"], false);
  ("-ms-flow-into", "[ none | <custom-ident> ]#", ["asSpecified"], false);
  ("-ms-grid-columns", "none | <track-list> | <auto-track-list>", ["asSpecifiedRelativeToAbsoluteLengths"], false);
  ("-ms-grid-rows", "none | <track-list> | <auto-track-list>", ["asSpecifiedRelativeToAbsoluteLengths"], false);
  ("-ms-high-contrast-adjust", "auto | none", ["asSpecified"], true);
  ("-ms-hyphenate-limit-chars", "auto | <integer>{1,3}", ["asSpecified"], true);
  ("-ms-hyphenate-limit-lines", "no-limit | <integer>", ["asSpecified"], true);
  ("-ms-hyphenate-limit-zone", "<percentage> | <length>", ["asSpecified"], true);
  ("-ms-ime-align", "auto | after", ["asSpecified"], false);
  ("-ms-overflow-style", "auto | none | scrollbar | -ms-autohiding-scrollbar", ["asSpecified"], true);
  ("-ms-scroll-chaining", "chained | none", ["asSpecified"], false);
  ("-ms-scroll-limit", "<'-ms-scroll-limit-x-min'> <'-ms-scroll-limit-y-min'> <'-ms-scroll-limit-x-max'> <'-ms-scroll-limit-y-max'>", ["-ms-scroll-limit-x-min"; "-ms-scroll-limit-y-min"; "-ms-scroll-limit-x-max"; "-ms-scroll-limit-y-max"], false);
  ("-ms-scroll-limit-x-max", "auto | <length>", ["asSpecified"], false);
  ("-ms-scroll-limit-x-min", "<length>", ["asSpecified"], false);
  ("-ms-scroll-limit-y-max", "auto | <length>", ["asSpecified"], false);
  ("-ms-scroll-limit-y-min", "<length>", ["asSpecified"], false);
  ("-ms-scroll-rails", "none | railed", ["asSpecified"], false);
  ("-ms-scroll-snap-points-x", "snapInterval( <length-percentage>, <length-percentage> ) | snapList( <length-percentage># )", ["asSpecified"], false);
  ("-ms-scroll-snap-points-y", "snapInterval( <length-percentage>, <length-percentage> ) | snapList( <length-percentage># )", ["asSpecified"], false);
  ("-ms-scroll-snap-type", "none | proximity | mandatory", ["asSpecified"], false);
  ("-ms-scroll-snap-x", "<'-ms-scroll-snap-type'> <'-ms-scroll-snap-points-x'>", ["-ms-scroll-snap-type"; "-ms-scroll-snap-points-x"], false);
  ("-ms-scroll-snap-y", "<'-ms-scroll-snap-type'> <'-ms-scroll-snap-points-y'>", ["-ms-scroll-snap-type"; "-ms-scroll-snap-points-y"], false);
  ("-ms-scroll-translation", "none | vertical-to-horizontal", ["asSpecified"], true);
  ("-ms-scrollbar-3dlight-color", "<color>", ["asSpecified"], true);
  ("-ms-scrollbar-arrow-color", "<color>", ["asSpecified"], true);
  ("-ms-scrollbar-base-color", "<color>", ["asSpecified"], true);
  ("-ms-scrollbar-darkshadow-color", "<color>", ["asSpecified"], true);
  ("-ms-scrollbar-face-color", "<color>", ["asSpecified"], true);
  ("-ms-scrollbar-highlight-color", "<color>", ["asSpecified"], true);
  ("-ms-scrollbar-shadow-color", "<color>", ["asSpecified"], true);
  ("-ms-scrollbar-track-color", "<color>", ["asSpecified"], true);
  ("-ms-text-autospace", "none | ideograph-alpha | ideograph-numeric | ideograph-parenthesis | ideograph-space", ["asSpecified"], false);
  ("-ms-touch-select", "grippers | none", ["asSpecified"], true);
  ("-ms-user-select", "none | element | text", ["asSpecified"], false);
  ("-ms-wrap-flow", "auto | both | start | end | maximum | clear", ["asSpecified"], false);
  ("-ms-wrap-margin", "<length>", ["asSpecified"], false);
  ("-ms-wrap-through", "wrap | none", ["asSpecified"], false);
  ("-webkit-appearance", "none | button | button-bevel | caret | checkbox | default-button | inner-spin-button | listbox | listitem | media-controls-background | media-controls-fullscreen-background | media-current-time-display | media-enter-fullscreen-button | media-exit-fullscreen-button | media-fullscreen-button | media-mute-button | media-overlay-play-button | media-play-button | media-seek-back-button | media-seek-forward-button | media-slider | media-sliderthumb | media-time-remaining-display | media-toggle-closed-captions-button | media-volume-slider | media-volume-slider-container | media-volume-sliderthumb | menulist | menulist-button | menulist-text | menulist-textfield | meter | progress-bar | progress-bar-value | push-button | radio | searchfield | searchfield-cancel-button | searchfield-decoration | searchfield-results-button | searchfield-results-decoration | slider-horizontal | slider-vertical | sliderthumb-horizontal | sliderthumb-vertical | square-button | textarea | textfield | -apple-pay-button", ["asSpecified"], false);
  ("-webkit-border-after", "<'border-top'>", ["border-block-end-width"; "border-block-end-style"; "border-block-end-color"], false);
  ("-webkit-border-after-color", "<'border-top-color'>", ["computedColor"], false);
  ("-webkit-border-after-style", "<'border-top-style'>", ["asSpecified"], false);
  ("-webkit-border-after-width", "<'border-top-width'>", ["absoluteLengthSnappedAsLineWidth"], false);
  ("-webkit-border-before", "<'border-top'>", ["border-block-start-width"; "border-block-start-style"; "border-block-start-color"], false);
  ("-webkit-border-before-color", "<'border-top-color'>", ["computedColor"], false);
  ("-webkit-border-before-style", "<'border-top-style'>", ["asSpecified"], false);
  ("-webkit-border-before-width", "<'border-top-width'>", ["absoluteLengthSnappedAsLineWidth"], false);
  ("-webkit-border-end", "<'border-top'>", ["border-inline-end-width"; "border-inline-end-style"; "border-inline-end-color"], false);
  ("-webkit-border-end-color", "<'border-top-color'>", ["computedColor"], false);
  ("-webkit-border-end-style", "<'border-top-style'>", ["asSpecified"], false);
  ("-webkit-border-end-width", "<'border-top-width'>", ["absoluteLengthSnappedAsLineWidth"], false);
  ("-webkit-border-start", "<'border-top'>", ["border-inline-start-width"; "border-inline-start-style"; "border-inline-start-color"], false);
  ("-webkit-border-start-color", "<'border-top-color'>", ["computedColor"], false);
  ("-webkit-border-start-style", "<'border-top-style'>", ["asSpecified"], false);
  ("-webkit-border-start-width", "<'border-top-width'>", ["absoluteLengthSnappedAsLineWidth"], false);
  ("-webkit-box-reflect", "[ above | below | right | left ]? <length>? <image>?", ["asSpecified"], false);
  ("-webkit-line-clamp", "none | <integer>", ["asSpecified"], false);
  ("-webkit-mask", "<mask-layer>#", ["-webkit-mask-image"; "-webkit-mask-repeat"; "-webkit-mask-attachment"; "-webkit-mask-position"; "-webkit-mask-origin"; "-webkit-mask-clip"], false);
  ("-webkit-mask-attachment", "<attachment>#", ["asSpecified"], false);
  ("-webkit-mask-clip", "[ <coord-box> | no-clip ]#", ["asSpecified"], false);
  ("-webkit-mask-composite", "<compositing-operator>#", ["asSpecified"], false);
  ("-webkit-mask-image", "<mask-reference>#", ["absoluteURIOrNone"], false);
  ("-webkit-mask-origin", "<coord-box>#", ["asSpecified"], false);
  ("-webkit-mask-position", "<position>#", ["absoluteLengthOrPercentage"], false);
  ("-webkit-mask-position-x", "[ <length-percentage> | left | center | right ]#", ["absoluteLengthOrPercentage"], false);
  ("-webkit-mask-position-y", "[ <length-percentage> | top | center | bottom ]#", ["absoluteLengthOrPercentage"], false);
  ("-webkit-mask-repeat", "<repeat-style>#", ["asSpecified"], false);
  ("-webkit-mask-repeat-x", "repeat | no-repeat | space | round", ["asSpecified"], false);
  ("-webkit-mask-repeat-y", "repeat | no-repeat | space | round", ["absoluteLengthOrPercentage"], false);
  ("-webkit-mask-size", "<bg-size>#", ["asSpecified"], false);
  ("-webkit-overflow-scrolling", "auto | touch", ["asSpecified"], true);
  ("-webkit-tap-highlight-color", "<color>", ["asSpecified"], true);
  ("-webkit-text-fill-color", "<color>", ["computedColor"], true);
  ("-webkit-text-stroke", "<line-width> || <color>", ["-webkit-text-stroke-width"; "-webkit-text-stroke-color"], true);
  ("-webkit-text-stroke-color", "<color>", ["computedColor"], true);
  ("-webkit-text-stroke-width", "<line-width>", ["absoluteLength"], true);
  ("-webkit-touch-callout", "default | none", ["asSpecified"], true);
  ("-webkit-user-modify", "read-only | read-write | read-write-plaintext-only", ["asSpecified"], true);
  ("-webkit-user-select", "auto | text | none | contain | all", ["asSpecified"], false);
  ("accent-color", "auto | <color>", ["asAutoOrColor"], true);
  ("align-content", "normal | <baseline-position> | <content-distribution> | <overflow-position>? <content-position>", ["asSpecified"], false);
  ("align-items", "normal | stretch | <baseline-position> | <overflow-position>? <self-position>", ["asSpecified"], false);
  ("align-self", "auto | <overflow-position>? [ normal | <self-position> ]| stretch | <baseline-position> | anchor-center", ["autoOnAbsolutelyPositionedElementsValueOfAlignItemsOnParent"], false);
  ("align-tracks", "[ normal | <baseline-position> | <content-distribution> | <overflow-position>? <content-position> ]#", ["asSpecified"], false);
  ("alignment-baseline", "baseline | <baseline-metric>", ["theSpecifiedKeyword"], false);
  ("all", "initial | inherit | unset | revert | revert-layer | revert-rule", ["asSpecifiedAppliesToEachProperty"], false);
  ("anchor-name", "none | <anchor-name>#", ["asSpecified"], false);
  ("anchor-scope", "none | all | <anchor-name>#", ["asSpecified"], false);
  ("animation", "<single-animation>#", ["animation-name"; "animation-duration"; "animation-timing-function"; "animation-delay"; "animation-direction"; "animation-iteration-count"; "animation-fill-mode"; "animation-play-state"; "animation-timeline"], false);
  ("animation-composition", "<single-animation-composition>#", ["asSpecified"], false);
  ("animation-delay", "<time>#", ["asSpecified"], false);
  ("animation-direction", "<single-animation-direction>#", ["asSpecified"], false);
  ("animation-duration", "<time [0s,∞]>#", ["asSpecified"], false);
  ("animation-fill-mode", "<single-animation-fill-mode>#", ["asSpecified"], false);
  ("animation-iteration-count", "<single-animation-iteration-count>#", ["asSpecified"], false);
  ("animation-name", "[ none | <keyframes-name> ]#", ["asSpecified"], false);
  ("animation-play-state", "<single-animation-play-state>#", ["asSpecified"], false);
  ("animation-range", "[ <'animation-range-start'> <'animation-range-end'>? ]#", ["animation-range-start"; "animation-range-end"], false);
  ("animation-range-end", "[ normal | <length-percentage> | <timeline-range-name> <length-percentage>? ]#", ["listEachItemConsistingOfNormalLengthPercentageOrNameLengthPercentage"], false);
  ("animation-range-start", "[ normal | <length-percentage> | <timeline-range-name> <length-percentage>? ]#", ["listEachItemConsistingOfNormalLengthPercentageOrNameLengthPercentage"], false);
  ("animation-timeline", "<single-animation-timeline>#", ["listEachItemIdentifierOrNoneAuto"], false);
  ("animation-timing-function", "<easing-function>#", ["asSpecified"], false);
  ("animation-trigger", "[ none | [ <dashed-ident> <animation-action>+ ]+ ]#", ["asSpecified"], false);
  ("appearance", "none | auto | base | base-select | <compat-auto> | <compat-special> | base", ["asSpecified"], false);
  ("aspect-ratio", "auto || <ratio>", ["asSpecified"], false);
  ("backdrop-filter", "none | <filter-value-list>", ["asSpecified"], false);
  ("backface-visibility", "visible | hidden", ["asSpecified"], false);
  ("background", "[ <bg-layer> , ]* <final-bg-layer>", ["background-image"; "background-position"; "background-size"; "background-repeat"; "background-origin"; "background-clip"; "background-attachment"; "background-color"], false);
  ("background-attachment", "<attachment>#", ["asSpecified"], false);
  ("background-blend-mode", "<'mix-blend-mode'>#", ["asSpecified"], false);
  ("background-clip", "<bg-clip>#", ["asSpecified"], false);
  ("background-color", "<color>", ["computedColor"], false);
  ("background-image", "<bg-image>#", ["asSpecifiedURLsAbsolute"], false);
  ("background-origin", "<visual-box>#", ["asSpecified"], false);
  ("background-position", "<bg-position>#", ["background-position-x"; "background-position-y"], false);
  ("background-position-x", "[ center | [ [ left | right | x-start | x-end ]? <length-percentage>? ]! ]#", ["listEachItemConsistingOfAbsoluteLengthPercentageAndOrigin"], false);
  ("background-position-y", "[ center | [ [ top | bottom | y-start | y-end ]? <length-percentage>? ]! ]#", ["listEachItemConsistingOfAbsoluteLengthPercentageAndOrigin"], false);
  ("background-repeat", "<repeat-style>#", ["listEachItemHasTwoKeywordsOnePerDimension"], false);
  ("background-size", "<bg-size>#", ["asSpecifiedRelativeToAbsoluteLengths"], false);
  ("baseline-shift", "<length-percentage> | sub | super | top | center | bottom", ["theSpecifiedKeywordOrAComputedLengthPercentageValue"], false);
  ("baseline-source", "auto | first | last", ["asSpecified"], false);
  ("block-size", "<'width'>", ["sameAsWidthAndHeight"], false);
  ("border", "<line-width> || <line-style> || <color>", ["border-width"; "border-style"; "border-color"], false);
  ("border-block", "<'border-block-start'>", ["border-block-width"; "border-block-style"; "border-block-color"], false);
  ("border-block-color", "<'border-top-color'>{1,2}", ["border-block-start-color"; "border-block-end-color"], false);
  ("border-block-end", "<line-width> || <line-style> || <color>", ["border-block-end-width"; "border-block-end-style"; "border-block-end-color"], false);
  ("border-block-end-color", "<color> | <image-1D>", ["computedColor"], false);
  ("border-block-end-style", "<line-style>", ["asSpecified"], false);
  ("border-block-end-width", "<line-width>", ["absoluteLengthSnappedAsLineWidth"], false);
  ("border-block-start", "<line-width> || <line-style> || <color>", ["border-block-start-width"; "border-block-start-style"; "border-block-start-color"], false);
  ("border-block-start-color", "<color> | <image-1D>", ["computedColor"], false);
  ("border-block-start-style", "<line-style>", ["asSpecified"], false);
  ("border-block-start-width", "<line-width>", ["absoluteLengthSnappedAsLineWidth"], false);
  ("border-block-style", "<'border-top-style'>{1,2}", ["border-block-start-style"; "border-block-end-style"], false);
  ("border-block-width", "<'border-top-width'>{1,2}", ["border-block-start-width"; "border-block-end-width"], false);
  ("border-bottom", "<line-width> || <line-style> || <color>", ["border-bottom-width"; "border-bottom-style"; "border-bottom-color"], false);
  ("border-bottom-color", "<color> | <image-1D>", ["computedColor"], false);
  ("border-bottom-left-radius", "<border-radius>", ["twoAbsoluteLengthOrPercentages"], false);
  ("border-bottom-right-radius", "<border-radius>", ["twoAbsoluteLengthOrPercentages"], false);
  ("border-bottom-style", "<line-style>", ["asSpecified"], false);
  ("border-bottom-width", "<line-width>", ["absoluteLengthSnappedAsLineWidth"], false);
  ("border-collapse", "separate | collapse", ["asSpecified"], true);
  ("border-color", "[ <color> | <image-1D> ]{1,4}", ["border-top-color"; "border-right-color"; "border-bottom-color"; "border-left-color"], false);
  ("border-end-end-radius", "<border-radius>", ["twoAbsoluteLengthOrPercentages"], false);
  ("border-end-start-radius", "<border-radius>", ["twoAbsoluteLengthOrPercentages"], false);
  ("border-image", "<'border-image-source'> || <'border-image-slice'> [ / <'border-image-width'> | / <'border-image-width'>? / <'border-image-outset'> ]? || <'border-image-repeat'>", ["border-image-source"; "border-image-slice"; "border-image-width"; "border-image-outset"; "border-image-repeat"], false);
  ("border-image-outset", "[ <length [0,∞]> | <number [0,∞]> ]{1,4}", ["asSpecifiedRelativeToAbsoluteLengths"], false);
  ("border-image-repeat", "[ stretch | repeat | round | space ]{1,2}", ["asSpecified"], false);
  ("border-image-slice", "[<number [0,∞]> | <percentage [0,∞]>]{1,4} && fill?", ["oneToFourPercentagesOrAbsoluteLengthsPlusFill"], false);
  ("border-image-source", "none | <image>", ["noneOrImageWithAbsoluteURI"], false);
  ("border-image-width", "[ <length-percentage [0,∞]> | <number [0,∞]> | auto ]{1,4}", ["asSpecifiedRelativeToAbsoluteLengths"], false);
  ("border-inline", "<'border-block-start'>", ["border-inline-width"; "border-inline-style"; "border-inline-color"], false);
  ("border-inline-color", "<'border-top-color'>{1,2}", ["border-inline-start-color"; "border-inline-end-color"], false);
  ("border-inline-end", "<line-width> || <line-style> || <color>", ["border-inline-end-width"; "border-inline-end-style"; "border-inline-end-color"], false);
  ("border-inline-end-color", "<color> | <image-1D>", ["computedColor"], false);
  ("border-inline-end-style", "<line-style>", ["asSpecified"], false);
  ("border-inline-end-width", "<line-width>", ["absoluteLengthSnappedAsLineWidth"], false);
  ("border-inline-start", "<line-width> || <line-style> || <color>", ["border-inline-start-width"; "border-inline-start-style"; "border-inline-start-color"], false);
  ("border-inline-start-color", "<color> | <image-1D>", ["computedColor"], false);
  ("border-inline-start-style", "<line-style>", ["asSpecified"], false);
  ("border-inline-start-width", "<line-width>", ["absoluteLengthSnappedAsLineWidth"], false);
  ("border-inline-style", "<'border-top-style'>{1,2}", ["border-inline-start-style"; "border-inline-end-style"], false);
  ("border-inline-width", "<'border-top-width'>{1,2}", ["border-inline-start-width"; "border-inline-end-width"], false);
  ("border-left", "<line-width> || <line-style> || <color>", ["border-left-width"; "border-left-style"; "border-left-color"], false);
  ("border-left-color", "<color> | <image-1D>", ["computedColor"], false);
  ("border-left-style", "<line-style>", ["asSpecified"], false);
  ("border-left-width", "<line-width>", ["absoluteLengthSnappedAsLineWidth"], false);
  ("border-radius", "<length-percentage [0,∞]>{1,4} [ / <length-percentage [0,∞]>{1,4} ]?", ["border-top-left-radius"; "border-top-right-radius"; "border-bottom-right-radius"; "border-bottom-left-radius"], false);
  ("border-right", "<line-width> || <line-style> || <color>", ["border-right-width"; "border-right-style"; "border-right-color"], false);
  ("border-right-color", "<color> | <image-1D>", ["computedColor"], false);
  ("border-right-style", "<line-style>", ["asSpecified"], false);
  ("border-right-width", "<line-width>", ["absoluteLengthSnappedAsLineWidth"], false);
  ("border-shape", "none | [ <basic-shape> <geometry-box>?]{1,2}", ["asSpecified"], false);
  ("border-spacing", "<length [0,∞]>{1,2}", ["twoAbsoluteLengths"], true);
  ("border-start-end-radius", "<border-radius>", ["twoAbsoluteLengthOrPercentages"], false);
  ("border-start-start-radius", "<border-radius>", ["twoAbsoluteLengthOrPercentages"], false);
  ("border-style", "<'border-top-style'>{1,4}", ["border-top-style"; "border-right-style"; "border-bottom-style"; "border-left-style"], false);
  ("border-top", "<line-width> || <line-style> || <color>", ["border-top-width"; "border-top-style"; "border-top-color"], false);
  ("border-top-color", "<color> | <image-1D>", ["computedColor"], false);
  ("border-top-left-radius", "<border-radius>", ["twoAbsoluteLengthOrPercentages"], false);
  ("border-top-right-radius", "<border-radius>", ["twoAbsoluteLengthOrPercentages"], false);
  ("border-top-style", "<line-style>", ["asSpecified"], false);
  ("border-top-width", "<line-width>", ["absoluteLengthSnappedAsLineWidth"], false);
  ("border-width", "<'border-top-width'>{1,4}", ["border-top-width"; "border-right-width"; "border-bottom-width"; "border-left-width"], false);
  ("bottom", "auto | <length-percentage> | <anchor()> | <anchor-size()>", ["lengthAbsolutePercentageAsSpecifiedOtherwiseAuto"], false);
  ("box-align", "start | center | end | baseline | stretch", ["asSpecified"], false);
  ("box-decoration-break", "slice | clone", ["asSpecified"], false);
  ("box-direction", "normal | reverse | inherit", ["asSpecified"], false);
  ("box-flex", "<number>", ["asSpecified"], false);
  ("box-flex-group", "<integer>", ["asSpecified"], false);
  ("box-lines", "single | multiple", ["asSpecified"], false);
  ("box-ordinal-group", "<integer>", ["asSpecified"], false);
  ("box-orient", "horizontal | vertical | inline-axis | block-axis | inherit", ["asSpecified"], false);
  ("box-pack", "start | center | end | justify", ["asSpecified"], false);
  ("box-shadow", "<spread-shadow>#", ["absoluteLengthsSpecifiedColorAsSpecified"], false);
  ("box-sizing", "content-box | border-box", ["asSpecified"], false);
  ("break-after", "auto | avoid | always | all | avoid-page | page | left | right | recto | verso | avoid-column | column | avoid-region | region", ["asSpecified"], false);
  ("break-before", "auto | avoid | always | all | avoid-page | page | left | right | recto | verso | avoid-column | column | avoid-region | region", ["asSpecified"], false);
  ("break-inside", "auto | avoid | avoid-page | avoid-column | avoid-region", ["asSpecified"], false);
  ("caption-side", "top | bottom", ["asSpecified"], true);
  ("caret", "<'caret-color'> || <'caret-animation'> || <'caret-shape'>", ["caret-color"; "caret-animation"; "caret-shape"], true);
  ("caret-animation", "auto | manual", ["asSpecified"], true);
  ("caret-color", "auto | <color> [auto | <color>]?", ["asAutoOrColor"], true);
  ("caret-shape", "auto | bar | block | underscore", ["asSpecified"], true);
  ("clear", "inline-start | inline-end | block-start | block-end | left | right | top | bottom | both-inline | both-block | both | none", ["asSpecified"], false);
  ("clip", "<shape> | <rect()> | auto", ["autoOrRectangle"], false);
  ("clip-path", "<clip-source> | [ <basic-shape> || <geometry-box> ] | none", ["asSpecifiedURLsAbsolute"], false);
  ("clip-rule", "nonzero | evenodd", ["asSpecified"], true);
  ("color", "<color>", ["computedColor"], true);
  ("color-interpolation-filters", "auto | sRGB | linearRGB", ["asSpecified"], true);
  ("color-scheme", "normal | [ light | dark | <custom-ident> ]+ && only?", ["asSpecified"], true);
  ("column-count", "auto | <integer [1,∞]>", ["asSpecified"], false);
  ("column-fill", "auto | balance | balance-all", ["asSpecified"], false);
  ("column-gap", "normal | <length-percentage [0,∞]> | <line-width>", ["asSpecifiedWithLengthsAbsoluteAndNormalComputingToZeroExceptMultiColumn"], false);
  ("column-height", "auto | <length [0,∞]>", ["autoOrAbsoluteLength"], false);
  ("column-rule", "<gap-rule-list> | <gap-auto-rule-list>", ["column-rule-width"; "column-rule-style"; "column-rule-color"], false);
  ("column-rule-color", "<line-color-list> | <auto-line-color-list>", ["computedColor"], false);
  ("column-rule-style", "<line-style-list> | <auto-line-style-list>", ["asSpecified"], false);
  ("column-rule-width", "<line-width-list> | <auto-line-width-list>", ["absoluteLengthSnappedAsLineWidth"], false);
  ("column-span", "none | <integer [1,∞]> | all | auto", ["asSpecified"], false);
  ("column-width", "auto | <length [0,∞]> | min-content | max-content | fit-content | fit-content(<length-percentage>)", ["autoOrAbsoluteLength"], false);
  ("column-wrap", "auto | nowrap | wrap", ["asSpecified"], false);
  ("columns", "[ <'column-width'> || <'column-count'> ] [ / <'column-height'> ]?", ["column-width"; "column-count"; "column-height"], false);
  ("contain", "none | strict | content | [ [size | inline-size] || layout || style || paint ]", ["asSpecified"], false);
  ("contain-intrinsic-block-size", "auto? [ none | <length> ]", ["asSpecifiedWithLengthValuesComputed"], false);
  ("contain-intrinsic-height", "auto? [ none | <length> ]", ["asSpecifiedWithLengthValuesComputed"], false);
  ("contain-intrinsic-inline-size", "auto? [ none | <length> ]", ["asSpecifiedWithLengthValuesComputed"], false);
  ("contain-intrinsic-size", "[ auto? [ none | <length> ] ]{1,2}", ["contain-intrinsic-width"; "contain-intrinsic-height"], false);
  ("contain-intrinsic-width", "auto? [ none | <length> ]", ["asSpecifiedWithLengthValuesComputed"], false);
  ("container", "<'container-name'> [ / <'container-type'> ]?", ["container-name"; "container-type"], false);
  ("container-name", "none | <custom-ident>+", ["noneOrOrderedListOfIdentifiers"], false);
  ("container-type", "normal | [ [ size | inline-size ] || scroll-state ]", ["asSpecified"], false);
  ("content", "normal | none | [ <content-replacement> | <content-list> ] [/ [ <string> | <counter> | <attr()> ]+ ]? | <element()>", ["normalOnElementsForPseudosNoneAbsoluteURIStringOrAsSpecified"], false);
  ("content-visibility", "visible | auto | hidden", ["asSpecified"], false);
  ("corner-block-end-shape", "<'corner-top-left-shape'>{1,2}", ["corner-end-start-shape"; "corner-end-end-shape"], false);
  ("corner-block-start-shape", "<'corner-top-left-shape'>{1,2}", ["corner-start-start-shape"; "corner-start-end-shape"], false);
  ("corner-bottom-left-shape", "<corner-shape-value>", ["correspondingSuperellipse"], false);
  ("corner-bottom-right-shape", "<corner-shape-value>", ["correspondingSuperellipse"], false);
  ("corner-bottom-shape", "<'corner-top-left-shape'>{1,2}", ["corner-bottom-left-shape"; "corner-bottom-right-shape"], false);
  ("corner-end-end-shape", "<corner-shape-value>", ["correspondingSuperellipse"], false);
  ("corner-end-start-shape", "<corner-shape-value>", ["correspondingSuperellipse"], false);
  ("corner-inline-end-shape", "<'corner-top-left-shape'>{1,2}", ["corner-start-end-shape"; "corner-end-end-shape"], false);
  ("corner-inline-start-shape", "<'corner-top-left-shape'>{1,2}", ["corner-start-start-shape"; "corner-start-end-shape"], false);
  ("corner-left-shape", "<'corner-top-left-shape'>{1,2}", ["corner-top-left-shape"; "corner-bottom-left-shape"], false);
  ("corner-right-shape", "<'corner-top-left-shape'>{1,2}", ["corner-top-right-shape"; "corner-bottom-right-shape"], false);
  ("corner-shape", "<'corner-top-left-shape'>{1,4}", ["corner-top-left-shape"; "corner-top-right-shape"; "corner-bottom-left-shape"; "corner-bottom-right-shape"], false);
  ("corner-start-end-shape", "<corner-shape-value>", ["correspondingSuperellipse"], false);
  ("corner-start-start-shape", "<corner-shape-value>", ["correspondingSuperellipse"], false);
  ("corner-top-left-shape", "<corner-shape-value>", ["correspondingSuperellipse"], false);
  ("corner-top-right-shape", "<corner-shape-value>", ["correspondingSuperellipse"], false);
  ("corner-top-shape", "<'corner-top-left-shape'>{1,2}", ["corner-top-left-shape"; "corner-top-right-shape"], false);
  ("counter-increment", "[ <counter-name> <integer>? ]+ | none", ["asSpecified"], false);
  ("counter-reset", "[ <counter-name> <integer>? | <reversed-counter-name> <integer>? ]+ | none", ["asSpecified"], false);
  ("counter-set", "[ <counter-name> <integer>? ]+ | none", ["asSpecified"], false);
  ("cursor", "[<cursor-image>,]* <cursor-predefined>", ["asSpecifiedURLsAbsolute"], true);
  ("cx", "<length-percentage>", ["percentageAsSpecifiedOrAbsoluteLength"], false);
  ("cy", "<length-percentage>", ["percentageAsSpecifiedOrAbsoluteLength"], false);
  ("d", "none | <string>", ["asSpecified"], false);
  ("direction", "ltr | rtl", ["asSpecified"], true);
  ("display", "[ <display-outside> || <display-inside> ] | <display-listitem> | <display-internal> | <display-box> | <display-legacy> | <display-outside> || [ <display-inside> | math ]", ["asSpecifiedExceptPositionedFloatingAndRootElementsKeywordMaybeDifferent"], false);
  ("dominant-baseline", "auto | <baseline-metric>", ["asSpecified"], true);
  ("dynamic-range-limit", "standard | no-limit | constrained | <dynamic-range-limit-mix()>", ["computedValueForDynamicRangeLimit"], true);
  ("empty-cells", "show | hide", ["asSpecified"], true);
  ("field-sizing", "fixed | content", ["asSpecified"], false);
  ("fill", "<paint>", ["asColorOrAbsoluteURL"], true);
  ("fill-opacity", "<'opacity'>", ["specifiedValueNumberClipped0To1"], true);
  ("fill-rule", "nonzero | evenodd", ["asSpecified"], true);
  ("filter", "none | <filter-value-list>", ["asSpecified"], false);
  ("flex", "none | [ <'flex-grow'> <'flex-shrink'>? || <'flex-basis'> ]", ["flex-grow"; "flex-shrink"; "flex-basis"], false);
  ("flex-basis", "content | <'width'>", ["asSpecifiedRelativeToAbsoluteLengths"], false);
  ("flex-direction", "row | row-reverse | column | column-reverse", ["asSpecified"], false);
  ("flex-flow", "<'flex-direction'> || <'flex-wrap'>", ["flex-direction"; "flex-wrap"], false);
  ("flex-grow", "<number [0,∞]>", ["asSpecified"], false);
  ("flex-shrink", "<number [0,∞]>", ["asSpecified"], false);
  ("flex-wrap", "nowrap | [ wrap | wrap-reverse ] || balance", ["asSpecified"], false);
  ("float", "block-start | block-end | inline-start | inline-end | snap-block | <snap-block()> | snap-inline | <snap-inline()> | left | right | top | bottom | none | footnote", ["asSpecified"], false);
  ("flood-color", "<color>", ["asSpecified"], false);
  ("flood-opacity", "<'opacity'>", ["specifiedValueClipped0To1"], false);
  ("font", "[ [ <'font-style'> || <font-variant-css2> || <'font-weight'> || <font-width-css3> ]? <'font-size'> [ / <'line-height'> ]? <'font-family'># ] | <system-font-family-name>", ["font-style"; "font-variant"; "font-weight"; "font-stretch"; "font-size"; "line-height"; "font-family"], true);
  ("font-family", "[ <font-family-name> | <generic-font-family> ]#", ["asSpecified"], true);
  ("font-feature-settings", "normal | <feature-tag-value>#", ["asSpecified"], true);
  ("font-kerning", "auto | normal | none", ["asSpecified"], true);
  ("font-language-override", "normal | <string>", ["asSpecified"], true);
  ("font-optical-sizing", "auto | none", ["asSpecified"], true);
  ("font-palette", "normal | light | dark | <palette-identifier> | <palette-mix()>", ["asSpecified"], true);
  ("font-size", "<absolute-size> | <relative-size> | <length-percentage [0,∞]> | math", ["absoluteLength"], true);
  ("font-size-adjust", "none | <number [0,∞]>", ["asSpecified"], true);
  ("font-smooth", "auto | never | always | <absolute-size> | <length>", ["asSpecified"], true);
  ("font-stretch", "normal | <percentage [0,∞]> | ultra-condensed | extra-condensed | condensed | semi-condensed | semi-expanded | expanded | extra-expanded | ultra-expanded", ["asSpecified"], true);
  ("font-style", "normal | italic | left | right | oblique <angle [-90deg,90deg]>?", ["asSpecified"], true);
  ("font-synthesis", "none | [ weight || style || small-caps || position]", ["asSpecified"], true);
  ("font-synthesis-position", "auto | none", ["asSpecified"], true);
  ("font-synthesis-small-caps", "auto | none", ["asSpecified"], true);
  ("font-synthesis-style", "auto | none | oblique-only", ["asSpecified"], true);
  ("font-synthesis-weight", "auto | none", ["asSpecified"], true);
  ("font-variant", "normal | none | [ [ <common-lig-values> || <discretionary-lig-values> || <historical-lig-values> || <contextual-alt-values> ] || [ small-caps | all-small-caps | petite-caps | all-petite-caps | unicase | titling-caps ] || [ stylistic(<font-feature-value-name>) || historical-forms || styleset(<font-feature-value-name>#) || character-variant(<font-feature-value-name>#) || swash(<font-feature-value-name>) || ornaments(<font-feature-value-name>) || annotation(<font-feature-value-name>) ] || [ <numeric-figure-values> || <numeric-spacing-values> || <numeric-fraction-values> || ordinal || slashed-zero ] || [ <east-asian-variant-values> || <east-asian-width-values> || ruby ] || [ sub | super ] || [ text | emoji | unicode ] ]", ["asSpecified"], true);
  ("font-variant-alternates", "normal | [ stylistic(<font-feature-value-name>) || historical-forms || styleset(<font-feature-value-name>#) || character-variant(<font-feature-value-name>#) || swash(<font-feature-value-name>) || ornaments(<font-feature-value-name>) || annotation(<font-feature-value-name>) ]", ["asSpecified"], true);
  ("font-variant-caps", "normal | small-caps | all-small-caps | petite-caps | all-petite-caps | unicase | titling-caps", ["asSpecified"], true);
  ("font-variant-east-asian", "normal | [ <east-asian-variant-values> || <east-asian-width-values> || ruby ]", ["asSpecified"], true);
  ("font-variant-emoji", "normal | text | emoji | unicode", ["asSpecified"], true);
  ("font-variant-ligatures", "normal | none | [ <common-lig-values> || <discretionary-lig-values> || <historical-lig-values> || <contextual-alt-values> ]", ["asSpecified"], true);
  ("font-variant-numeric", "normal | [ <numeric-figure-values> || <numeric-spacing-values> || <numeric-fraction-values> || ordinal || slashed-zero ]", ["asSpecified"], true);
  ("font-variant-position", "normal | sub | super", ["asSpecified"], true);
  ("font-variation-settings", "normal | [ <opentype-tag> <number> ]#", ["asSpecified"], true);
  ("font-weight", "<font-weight-absolute> | bolder | lighter", ["keywordOrNumericalValueBolderLighterTransformedToRealValue"], true);
  ("font-width", "normal | <percentage [0,∞]> | ultra-condensed | extra-condensed | condensed | semi-condensed | semi-expanded | expanded | extra-expanded | ultra-expanded", ["percentage"], true);
  ("forced-color-adjust", "auto | none | preserve-parent-color", ["asSpecified"], true);
  ("frame-sizing", "auto | content-width | content-height | content-block-size | content-inline-size", ["asSpecified"], false);
  ("gap", "<'row-gap'> <'column-gap'>?", ["row-gap"; "column-gap"], false);
  ("grid", "<'grid-template'> | <'grid-template-rows'> / [ auto-flow && dense? ] <'grid-auto-columns'>? | [ auto-flow && dense? ] <'grid-auto-rows'>? / <'grid-template-columns'>", ["grid-template-rows"; "grid-template-columns"; "grid-template-areas"; "grid-auto-rows"; "grid-auto-columns"; "grid-auto-flow"; "grid-column-gap"; "grid-row-gap"; "column-gap"; "row-gap"], false);
  ("grid-area", "<grid-line> [ / <grid-line> ]{0,3}", ["grid-row-start"; "grid-column-start"; "grid-row-end"; "grid-column-end"], false);
  ("grid-auto-columns", "<track-size>+", ["percentageAsSpecifiedOrAbsoluteLength"], false);
  ("grid-auto-flow", "[ row | column ] || dense", ["asSpecified"], false);
  ("grid-auto-rows", "<track-size>+", ["percentageAsSpecifiedOrAbsoluteLength"], false);
  ("grid-column", "<grid-line> [ / <grid-line> ]?", ["grid-column-start"; "grid-column-end"], false);
  ("grid-column-end", "<grid-line>", ["asSpecified"], false);
  ("grid-column-gap", "normal | <length-percentage [0,∞]> | <line-width>", ["percentageAsSpecifiedOrAbsoluteLength"], false);
  ("grid-column-start", "<grid-line>", ["asSpecified"], false);
  ("grid-gap", "<'row-gap'> <'column-gap'>?", ["grid-row-gap"; "grid-column-gap"], false);
  ("grid-row", "<grid-line> [ / <grid-line> ]?", ["grid-row-start"; "grid-row-end"], false);
  ("grid-row-end", "<grid-line>", ["asSpecified"], false);
  ("grid-row-gap", "normal | <length-percentage [0,∞]> | <line-width>", ["percentageAsSpecifiedOrAbsoluteLength"], false);
  ("grid-row-start", "<grid-line>", ["asSpecified"], false);
  ("grid-template", "none | [ <'grid-template-rows'> / <'grid-template-columns'> ] | [ <line-names>? <string> <track-size>? <line-names>? ]+ [ / <explicit-track-list> ]?", ["grid-template-columns"; "grid-template-rows"; "grid-template-areas"], false);
  ("grid-template-areas", "none | <string>+", ["asSpecified"], false);
  ("grid-template-columns", "none | <track-list> | <auto-track-list> | subgrid <line-name-list>?", ["asSpecifiedRelativeToAbsoluteLengths"], false);
  ("grid-template-rows", "none | <track-list> | <auto-track-list> | subgrid <line-name-list>?", ["asSpecifiedRelativeToAbsoluteLengths"], false);
  ("hanging-punctuation", "none | [ first || [ force-end | allow-end ] || last ]", ["asSpecified"], true);
  ("height", "auto | <length-percentage [0,∞]> | min-content | max-content | fit-content | fit-content(<length-percentage [0,∞]>) | <calc-size()> | <anchor-size()>", ["percentageAutoOrAbsoluteLength"], false);
  ("hyphenate-character", "auto | <string>", ["asSpecified"], true);
  ("hyphenate-limit-chars", "[ auto | <integer> ]{1,3}", ["asSpecified"], true);
  ("hyphens", "none | manual | auto", ["asSpecified"], true);
  ("image-orientation", "from-image | none | [ <angle> || flip ]", ["angleRoundedToNextQuarter"], true);
  ("image-rendering", "auto | smooth | high-quality | pixelated | crisp-edges", ["asSpecified"], true);
  ("image-resolution", "[ from-image || <resolution> ] && snap?", ["asSpecifiedWithExceptionOfResolution"], true);
  ("ime-mode", "auto | normal | active | inactive | disabled", ["asSpecified"], false);
  ("initial-letter", "normal | <number [1,∞]> <integer [1,∞]> | <number [1,∞]> && [ drop | raise ]?", ["asSpecified"], false);
  ("initial-letter-align", "[ border-box? [ alphabetic | ideographic | hanging | leading ]? ]!", ["asSpecified"], false);
  ("inline-size", "<'width'>", ["sameAsWidthAndHeight"], false);
  ("inset", "<'top'>{1,4}", ["top"; "bottom"; "left"; "right"], false);
  ("inset-block", "<'top'>{1,2}", ["inset-block-start"; "inset-block-end"], false);
  ("inset-block-end", "auto | <length-percentage>", ["sameAsBoxOffsets"], false);
  ("inset-block-start", "auto | <length-percentage>", ["sameAsBoxOffsets"], false);
  ("inset-inline", "<'top'>{1,2}", ["inset-inline-start"; "inset-inline-end"], false);
  ("inset-inline-end", "auto | <length-percentage>", ["sameAsBoxOffsets"], false);
  ("inset-inline-start", "auto | <length-percentage>", ["sameAsBoxOffsets"], false);
  ("interactivity", "auto | inert", ["asSpecified"], true);
  ("interest-delay", "<'interest-delay-start'>{1,2}", ["interest-delay-start"; "interest-delay-end"], true);
  ("interest-delay-end", "normal | <time>", ["normalOrComputedTime"], true);
  ("interest-delay-start", "normal | <time>", ["normalOrComputedTime"], true);
  ("interpolate-size", "numeric-only | allow-keywords", ["asSpecified"], true);
  ("isolation", "<isolation-mode>", ["asSpecified"], false);
  ("justify-content", "normal | <content-distribution> | <overflow-position>? [ <content-position> | left | right ]", ["asSpecified"], false);
  ("justify-items", "normal | stretch | <baseline-position> | <overflow-position>? [ <self-position> | left | right ] | legacy | legacy && [ left | right | center ]", ["asSpecified"], false);
  ("justify-self", "auto | <overflow-position>? [ normal | <self-position> | left | right ] | stretch | <baseline-position> | anchor-center", ["asSpecified"], false);
  ("justify-tracks", "[ normal | <content-distribution> | <overflow-position>? [ <content-position> | left | right ] ]#", ["asSpecified"], false);
  ("left", "auto | <length-percentage> | <anchor()> | <anchor-size()>", ["lengthAbsolutePercentageAsSpecifiedOtherwiseAuto"], false);
  ("letter-spacing", "normal | <length>", ["optimumValueOfAbsoluteLengthOrNormal"], true);
  ("lighting-color", "<color>", ["asSpecified"], false);
  ("line-break", "auto | loose | normal | strict | anywhere", ["asSpecified"], true);
  ("line-clamp", "none | <integer>", ["asSpecified"], false);
  ("line-height", "normal | <number [0,∞]> | <length-percentage [0,∞]>", ["absoluteLengthOrAsSpecified"], true);
  ("line-height-step", "<length [0,∞]>", ["absoluteLength"], true);
  ("list-style", "<'list-style-position'> || <'list-style-image'> || <'list-style-type'>", ["list-style-image"; "list-style-position"; "list-style-type"], true);
  ("list-style-image", "<image> | none", ["theKeywordListStyleImageNoneOrComputedValue"], true);
  ("list-style-position", "inside | outside", ["asSpecified"], true);
  ("list-style-type", "<counter-style> | <string> | none", ["asSpecified"], true);
  ("margin", "<'margin-top'>{1,4}", ["margin-bottom"; "margin-left"; "margin-right"; "margin-top"], false);
  ("margin-block", "<'margin-top'>{1,2}", ["margin-block-start"; "margin-block-end"], false);
  ("margin-block-end", "<'margin-top'>", ["lengthAbsolutePercentageAsSpecifiedOtherwiseAuto"], false);
  ("margin-block-start", "<'margin-top'>", ["lengthAbsolutePercentageAsSpecifiedOtherwiseAuto"], false);
  ("margin-bottom", "<length-percentage> | auto | <anchor-size()>", ["percentageAsSpecifiedOrAbsoluteLength"], false);
  ("margin-inline", "<'margin-top'>{1,2}", ["margin-inline-start"; "margin-inline-end"], false);
  ("margin-inline-end", "<'margin-top'>", ["lengthAbsolutePercentageAsSpecifiedOtherwiseAuto"], false);
  ("margin-inline-start", "<'margin-top'>", ["lengthAbsolutePercentageAsSpecifiedOtherwiseAuto"], false);
  ("margin-left", "<length-percentage> | auto | <anchor-size()>", ["percentageAsSpecifiedOrAbsoluteLength"], false);
  ("margin-right", "<length-percentage> | auto | <anchor-size()>", ["percentageAsSpecifiedOrAbsoluteLength"], false);
  ("margin-top", "<length-percentage> | auto | <anchor-size()>", ["percentageAsSpecifiedOrAbsoluteLength"], false);
  ("margin-trim", "none | [ block || inline ] | [ block-start || inline-start || block-end || inline-end ]", ["asSpecified"], false);
  ("marker", "none | <marker-ref>", ["asSpecified"], true);
  ("marker-end", "none | <marker-ref>", ["asSpecifiedURLsAbsolute"], true);
  ("marker-mid", "none | <marker-ref>", ["asSpecifiedURLsAbsolute"], true);
  ("marker-start", "none | <marker-ref>", ["asSpecifiedURLsAbsolute"], true);
  ("mask", "<mask-layer>#", ["mask-image"; "mask-mode"; "mask-repeat"; "mask-position"; "mask-clip"; "mask-origin"; "mask-size"; "mask-composite"], false);
  ("mask-border", "<'mask-border-source'> || <'mask-border-slice'> [ / <'mask-border-width'>? [ / <'mask-border-outset'> ]? ]? || <'mask-border-repeat'> || <'mask-border-mode'>", ["mask-border-mode"; "mask-border-outset"; "mask-border-repeat"; "mask-border-slice"; "mask-border-source"; "mask-border-width"], false);
  ("mask-border-mode", "luminance | alpha", ["asSpecified"], false);
  ("mask-border-outset", "<'border-image-outset'>", ["asSpecifiedRelativeToAbsoluteLengths"], false);
  ("mask-border-repeat", "<'border-image-repeat'>", ["asSpecified"], false);
  ("mask-border-slice", "<'border-image-slice'>", ["asSpecified"], false);
  ("mask-border-source", "<'border-image-source'>", ["asSpecifiedURLsAbsolute"], false);
  ("mask-border-width", "<'border-image-width'>", ["asSpecifiedRelativeToAbsoluteLengths"], false);
  ("mask-clip", "[ <coord-box> | no-clip ]#", ["asSpecified"], false);
  ("mask-composite", "<compositing-operator>#", ["asSpecified"], false);
  ("mask-image", "<mask-reference>#", ["asSpecifiedURLsAbsolute"], false);
  ("mask-mode", "<masking-mode>#", ["asSpecified"], false);
  ("mask-origin", "<coord-box>#", ["asSpecified"], false);
  ("mask-position", "<position>#", ["consistsOfTwoKeywordsForOriginAndOffsets"], false);
  ("mask-repeat", "<repeat-style>#", ["consistsOfTwoDimensionKeywords"], false);
  ("mask-size", "<bg-size>#", ["asSpecifiedRelativeToAbsoluteLengths"], false);
  ("mask-type", "luminance | alpha", ["asSpecified"], false);
  ("masonry-auto-flow", "[ pack | next ] || [ definite-first | ordered ]", ["asSpecified"], false);
  ("math-depth", "auto-add | add(<integer>) | <integer>", ["asSpecified"], true);
  ("math-shift", "normal | compact", ["asSpecified"], true);
  ("math-style", "normal | compact", ["asSpecified"], true);
  ("max-block-size", "<'max-width'>", ["sameAsMaxWidthAndMaxHeight"], false);
  ("max-height", "none | <length-percentage [0,∞]> | min-content | max-content | fit-content | fit-content(<length-percentage [0,∞]>) | <calc-size()> | <anchor-size()>", ["percentageAsSpecifiedAbsoluteLengthOrNone"], false);
  ("max-inline-size", "<'max-width'>", ["sameAsMaxWidthAndMaxHeight"], false);
  ("max-lines", "none | <integer>", ["asSpecified"], false);
  ("max-width", "none | <length-percentage [0,∞]> | min-content | max-content | fit-content | fit-content(<length-percentage [0,∞]>) | <calc-size()> | <anchor-size()>", ["percentageAsSpecifiedAbsoluteLengthOrNone"], false);
  ("min-block-size", "<'min-width'>", ["sameAsMinWidthAndMinHeight"], false);
  ("min-height", "auto | <length-percentage [0,∞]> | min-content | max-content | fit-content | fit-content(<length-percentage [0,∞]>) | <calc-size()> | <anchor-size()>", ["percentageAsSpecifiedOrAbsoluteLength"], false);
  ("min-inline-size", "<'min-width'>", ["sameAsMinWidthAndMinHeight"], false);
  ("min-width", "auto | <length-percentage [0,∞]> | min-content | max-content | fit-content | fit-content(<length-percentage [0,∞]>) | <calc-size()> | <anchor-size()>", ["percentageAsSpecifiedOrAbsoluteLength"], false);
  ("mix-blend-mode", "<blend-mode> | plus-lighter", ["asSpecified"], false);
  ("object-fit", "fill | contain | cover | none | scale-down", ["asSpecified"], false);
  ("object-position", "<position>", ["asSpecified"], false);
  ("object-view-box", "none | <basic-shape-rect>", ["specifiedKeywordOrComputedFunction"], false);
  ("offset", "[ <'offset-position'>? [ <'offset-path'> [ <'offset-distance'> || <'offset-rotate'> ]? ]? ]! [ / <'offset-anchor'> ]?", ["offset-position"; "offset-path"; "offset-distance"; "offset-anchor"; "offset-rotate"], false);
  ("offset-anchor", "auto | <position>", ["forLengthAbsoluteValueOtherwisePercentage"], false);
  ("offset-distance", "<length-percentage>", ["forLengthAbsoluteValueOtherwisePercentage"], false);
  ("offset-path", "none | <offset-path> || <coord-box>", ["asSpecified"], false);
  ("offset-position", "normal | auto | <position>", ["forLengthAbsoluteValueOtherwisePercentage"], false);
  ("offset-rotate", "[ auto | reverse ] || <angle>", ["asSpecified"], false);
  ("opacity", "<opacity-value>", ["specifiedValueNumberClipped0To1"], false);
  ("order", "<integer>", ["asSpecified"], false);
  ("orphans", "<integer [1,∞]>", ["asSpecified"], true);
  ("outline", "<'outline-width'> || <'outline-style'> || <'outline-color'>", ["outline-width"; "outline-style"; "outline-color"], false);
  ("outline-color", "auto | <'border-top-color'>", ["autoForTranslucentColorRGBAOtherwiseRGB"], false);
  ("outline-offset", "<length>", ["absoluteLengthSnappedAsLineWidth"], false);
  ("outline-style", "auto | <outline-line-style>", ["asSpecified"], false);
  ("outline-width", "<line-width>", ["absoluteLengthSnappedAsLineWidth"], false);
  ("overflow", "<'overflow-block'>{1,2}", ["overflow-x"; "overflow-y"], false);
  ("overflow-anchor", "auto | none", ["asSpecified"], false);
  ("overflow-block", "visible | hidden | clip | scroll | auto", ["asSpecifiedButVisibleOrClipReplacedToAutoOrHiddenIfOtherValueDifferent"], false);
  ("overflow-clip-box", "padding-box | content-box", ["asSpecified"], false);
  ("overflow-clip-margin", "<visual-box> || <length>", ["theComputedLengthAndVisualBox"], false);
  ("overflow-inline", "visible | hidden | clip | scroll | auto", ["asSpecifiedButVisibleOrClipReplacedToAutoOrHiddenIfOtherValueDifferent"], false);
  ("overflow-wrap", "normal | break-word | anywhere", ["asSpecified"], true);
  ("overflow-x", "visible | hidden | clip | scroll | auto", ["asSpecifiedButVisibleOrClipReplacedToAutoOrHiddenIfOtherValueDifferent"], false);
  ("overflow-y", "visible | hidden | clip | scroll | auto", ["asSpecifiedButVisibleOrClipReplacedToAutoOrHiddenIfOtherValueDifferent"], false);
  ("overlay", "none | auto", ["asSpecified"], false);
  ("overscroll-behavior", "[ contain | none | auto | chain ]{1,2}", ["overscroll-behavior-x"; "overscroll-behavior-y"], false);
  ("overscroll-behavior-block", "contain | none | auto | chain", ["asSpecified"], false);
  ("overscroll-behavior-inline", "contain | none | auto | chain", ["asSpecified"], false);
  ("overscroll-behavior-x", "contain | none | auto | chain", ["asSpecified"], false);
  ("overscroll-behavior-y", "contain | none | auto | chain", ["asSpecified"], false);
  ("padding", "<'padding-top'>{1,4}", ["padding-bottom"; "padding-left"; "padding-right"; "padding-top"], false);
  ("padding-block", "<'padding-top'>{1,2}", ["padding-block-start"; "padding-block-end"], false);
  ("padding-block-end", "<'padding-top'>", ["asLength"], false);
  ("padding-block-start", "<'padding-top'>", ["asLength"], false);
  ("padding-bottom", "<length-percentage [0,∞]>", ["percentageAsSpecifiedOrAbsoluteLength"], false);
  ("padding-inline", "<'padding-top'>{1,2}", ["padding-inline-start"; "padding-inline-end"], false);
  ("padding-inline-end", "<'padding-top'>", ["asLength"], false);
  ("padding-inline-start", "<'padding-top'>", ["asLength"], false);
  ("padding-left", "<length-percentage [0,∞]>", ["percentageAsSpecifiedOrAbsoluteLength"], false);
  ("padding-right", "<length-percentage [0,∞]>", ["percentageAsSpecifiedOrAbsoluteLength"], false);
  ("padding-top", "<length-percentage [0,∞]>", ["percentageAsSpecifiedOrAbsoluteLength"], false);
  ("page", "auto | <custom-ident>", ["asSpecified"], false);
  ("page-break-after", "auto | always | avoid | left | right | inherit", ["asSpecified"], false);
  ("page-break-before", "auto | always | avoid | left | right | inherit", ["asSpecified"], false);
  ("page-break-inside", "avoid | auto | inherit", ["asSpecified"], false);
  ("paint-order", "normal | [ fill || stroke || markers ]", ["asSpecified"], true);
  ("perspective", "none | <length>", ["absoluteLengthOrNone"], false);
  ("perspective-origin", "<position>", ["forLengthAbsoluteValueOtherwisePercentage"], false);
  ("place-content", "<'align-content'> <'justify-content'>?", ["align-content"; "justify-content"], false);
  ("place-items", "<'align-items'> <'justify-items'>?", ["align-items"; "justify-items"], false);
  ("place-self", "<'align-self'> <'justify-self'>?", ["align-self"; "justify-self"], false);
  ("pointer-events", "auto | bounding-box | visiblePainted | visibleFill | visibleStroke | visible | painted | fill | stroke | all | none", ["asSpecified"], true);
  ("position", "static | relative | absolute | sticky | fixed | <running()>", ["asSpecified"], false);
  ("position-anchor", "normal | none | auto | <anchor-name> | match-parent", ["asSpecified"], false);
  ("position-area", "none | <position-area>", ["asSpecified"], false);
  ("position-try", "<'position-try-order'>? <'position-try-fallbacks'>", ["position-try-fallbacks"; "position-try-order"], false);
  ("position-try-fallbacks", "none | [ [<dashed-ident> || <try-tactic>] | <position-area> ]#", ["asSpecified"], false);
  ("position-try-order", "normal | <try-size>", ["asSpecified"], false);
  ("position-visibility", "always | [ anchor-valid || anchor-visible || no-overflow ]", ["asSpecified"], false);
  ("print-color-adjust", "economy | exact", ["asSpecified"], true);
  ("quotes", "auto | none | match-parent | [ <string> <string> ]+", ["asSpecified"], true);
  ("r", "<length-percentage>", ["percentageAsSpecifiedOrAbsoluteLength"], false);
  ("reading-flow", "normal | source-order | flex-visual | flex-flow | grid-rows | grid-columns | grid-order", ["asSpecified"], false);
  ("reading-order", "<integer>", ["specifiedInteger"], false);
  ("resize", "none | both | horizontal | vertical | block | inline", ["asSpecified"], false);
  ("right", "auto | <length-percentage> | <anchor()> | <anchor-size()>", ["lengthAbsolutePercentageAsSpecifiedOtherwiseAuto"], false);
  ("rotate", "none | <angle> | [ x | y | z | <number>{3} ] && <angle>", ["asSpecified"], false);
  ("row-gap", "normal | <length-percentage [0,∞]> | <line-width>", ["asSpecifiedWithLengthsAbsoluteAndNormalComputingToZeroExceptMultiColumn"], false);
  ("ruby-align", "start | center | space-between | space-around", ["asSpecified"], true);
  ("ruby-merge", "separate | merge | auto", ["asSpecified"], true);
  ("ruby-overhang", "auto | spaces", ["theSpecifiedKeyword"], true);
  ("ruby-position", "[ alternate || [ over | under ] ] | inter-character", ["asSpecified"], true);
  ("rx", "<length-percentage> | auto", ["percentageAsSpecifiedOrAbsoluteLength"], false);
  ("ry", "<length-percentage> | auto", ["percentageAsSpecifiedOrAbsoluteLength"], false);
  ("scale", "none | [ <number> | <percentage> ]{1,3}", ["asSpecified"], false);
  ("scroll-behavior", "auto | smooth", ["asSpecified"], false);
  ("scroll-initial-target", "none | nearest", ["theSpecifiedKeyword"], false);
  ("scroll-margin", "<length>{1,4}", ["scroll-margin-bottom"; "scroll-margin-left"; "scroll-margin-right"; "scroll-margin-top"], false);
  ("scroll-margin-block", "<length>{1,2}", ["scroll-margin-block-start"; "scroll-margin-block-end"], false);
  ("scroll-margin-block-end", "<length>", ["asSpecified"], false);
  ("scroll-margin-block-start", "<length>", ["asSpecified"], false);
  ("scroll-margin-bottom", "<length>", ["asSpecified"], false);
  ("scroll-margin-inline", "<length>{1,2}", ["scroll-margin-inline-start"; "scroll-margin-inline-end"], false);
  ("scroll-margin-inline-end", "<length>", ["asSpecified"], false);
  ("scroll-margin-inline-start", "<length>", ["asSpecified"], false);
  ("scroll-margin-left", "<length>", ["asSpecified"], false);
  ("scroll-margin-right", "<length>", ["asSpecified"], false);
  ("scroll-margin-top", "<length>", ["asSpecified"], false);
  ("scroll-marker-group", "none | before | after", ["asSpecified"], false);
  ("scroll-padding", "[ auto | <length-percentage [0,∞]> ]{1,4}", ["scroll-padding-bottom"; "scroll-padding-left"; "scroll-padding-right"; "scroll-padding-top"], false);
  ("scroll-padding-block", "[ auto | <length-percentage [0,∞]> ]{1,2}", ["scroll-padding-block-start"; "scroll-padding-block-end"], false);
  ("scroll-padding-block-end", "auto | <length-percentage [0,∞]>", ["asSpecified"], false);
  ("scroll-padding-block-start", "auto | <length-percentage [0,∞]>", ["asSpecified"], false);
  ("scroll-padding-bottom", "auto | <length-percentage [0,∞]>", ["asSpecified"], false);
  ("scroll-padding-inline", "[ auto | <length-percentage [0,∞]> ]{1,2}", ["scroll-padding-inline-start"; "scroll-padding-inline-end"], false);
  ("scroll-padding-inline-end", "auto | <length-percentage [0,∞]>", ["asSpecified"], false);
  ("scroll-padding-inline-start", "auto | <length-percentage [0,∞]>", ["asSpecified"], false);
  ("scroll-padding-left", "auto | <length-percentage [0,∞]>", ["asSpecified"], false);
  ("scroll-padding-right", "auto | <length-percentage [0,∞]>", ["asSpecified"], false);
  ("scroll-padding-top", "auto | <length-percentage [0,∞]>", ["asSpecified"], false);
  ("scroll-snap-align", "[ none | start | end | center ]{1,2}", ["asSpecified"], false);
  ("scroll-snap-coordinate", "none | <position>#", ["asSpecifiedRelativeToAbsoluteLengths"], false);
  ("scroll-snap-destination", "<position>", ["asSpecifiedRelativeToAbsoluteLengths"], false);
  ("scroll-snap-points-x", "none | repeat( <length-percentage> )", ["asSpecifiedRelativeToAbsoluteLengths"], false);
  ("scroll-snap-points-y", "none | repeat( <length-percentage> )", ["asSpecifiedRelativeToAbsoluteLengths"], false);
  ("scroll-snap-stop", "normal | always", ["asSpecified"], false);
  ("scroll-snap-type", "none | [ x | y | block | inline | both ] [ mandatory | proximity ]?", ["asSpecified"], false);
  ("scroll-snap-type-x", "none | mandatory | proximity", ["asSpecified"], false);
  ("scroll-snap-type-y", "none | mandatory | proximity", ["asSpecified"], false);
  ("scroll-target-group", "none | auto", ["asSpecified"], false);
  ("scroll-timeline", "[ <'scroll-timeline-name'> <'scroll-timeline-axis'>? ]#", ["scroll-timeline-name"; "scroll-timeline-axis"], false);
  ("scroll-timeline-axis", "[ block | inline | x | y ]#", ["asSpecified"], false);
  ("scroll-timeline-name", "[ none | <dashed-ident> ]#", ["noneOrOrderedListOfIdentifiers"], false);
  ("scrollbar-color", "auto | <color>{2}", ["asSpecified"], true);
  ("scrollbar-gutter", "auto | stable && both-edges?", ["asSpecified"], false);
  ("scrollbar-width", "auto | thin | none", ["asSpecified"], false);
  ("shape-image-threshold", "<opacity-value>", ["specifiedValueNumberClipped0To1"], false);
  ("shape-margin", "<length-percentage [0,∞]>", ["asSpecifiedRelativeToAbsoluteLengths"], false);
  ("shape-outside", "none | [ <basic-shape> || <shape-box> ] | <image>", ["asDefinedForBasicShapeWithAbsoluteURIOtherwiseAsSpecified"], false);
  ("shape-rendering", "auto | optimizeSpeed | crispEdges | geometricPrecision", ["asSpecified"], true);
  ("speak-as", "normal | spell-out || digits || [ literal-punctuation | no-punctuation ]", ["specifiedValue"], true);
  ("stop-color", "<'color'>", ["asSpecified"], false);
  ("stop-opacity", "<'opacity'>", ["asSpecified"], false);
  ("stroke", "<paint>", ["asLonghands"], true);
  ("stroke-color", "<color>#", ["computedColor"], true);
  ("stroke-dasharray", "none | [<length-percentage> | <number>]+#", ["listEachItemConsistingOfAbsoluteLengthPercentageOrKeyword"], true);
  ("stroke-dashoffset", "<length-percentage> | <number>", ["absoluteLengthOrPercentageNumbersConverted"], true);
  ("stroke-linecap", "butt | round | square", ["asSpecified"], true);
  ("stroke-linejoin", "[ crop | arcs | miter ] || [ bevel | round | fallback ]", ["asSpecified"], true);
  ("stroke-miterlimit", "<number>", ["asSpecified"], true);
  ("stroke-opacity", "<'opacity'>", ["specifiedValueClipped0To1"], true);
  ("stroke-width", "[ <length-percentage> | <line-width> | <number> ]#", ["absoluteLengthOrPercentageNumbersConverted"], true);
  ("tab-size", "<number [0,∞]> | <length [0,∞]>", ["specifiedIntegerOrAbsoluteLength"], true);
  ("table-layout", "auto | fixed", ["asSpecified"], false);
  ("text-align", "start | end | left | right | center | justify | match-parent | justify-all", ["asSpecifiedExceptMatchParent"], true);
  ("text-align-last", "auto | start | end | left | right | center | justify | match-parent", ["asSpecified"], true);
  ("text-anchor", "start | middle | end", ["asSpecified"], true);
  ("text-autospace", "normal | <autospace> | auto", ["asSpecified"], true);
  ("text-box", "normal | <'text-box-trim'> || <'text-box-edge'>", ["theSpecifiedKeyword"], false);
  ("text-box-edge", "auto | <text-edge>", ["theSpecifiedKeyword"], false);
  ("text-box-trim", "none | trim-start | trim-end | trim-both", ["theSpecifiedKeyword"], false);
  ("text-combine-upright", "none | all | [ digits <integer [2,4]>? ]", ["keywordPlusIntegerIfDigits"], true);
  ("text-decoration", "<'text-decoration-line'> || <'text-decoration-style'> || <'text-decoration-color'>", ["text-decoration-line"; "text-decoration-style"; "text-decoration-color"; "text-decoration-thickness"], false);
  ("text-decoration-color", "<color>", ["computedColor"], false);
  ("text-decoration-inset", "<length>{1,2} | auto", ["absoluteLengthOrKeyword"], false);
  ("text-decoration-line", "none | [ underline || overline || line-through || blink ]", ["asSpecified"], false);
  ("text-decoration-skip", "none | [ objects || [ spaces | [ leading-spaces || trailing-spaces ] ] || edges || box-decoration ]", ["asSpecified"], true);
  ("text-decoration-skip-ink", "auto | all | none", ["asSpecified"], true);
  ("text-decoration-style", "solid | double | dotted | dashed | wavy", ["asSpecified"], false);
  ("text-decoration-thickness", "auto | from-font | <length> | <percentage>", ["asSpecified"], false);
  ("text-emphasis", "<'text-emphasis-style'> || <'text-emphasis-color'>", ["text-emphasis-style"; "text-emphasis-color"], true);
  ("text-emphasis-color", "<color>", ["computedColor"], true);
  ("text-emphasis-position", "[ over | under ] && [ right | left ]?", ["asSpecified"], true);
  ("text-emphasis-style", "none | [ [ filled | open ] || [ dot | circle | double-circle | triangle | sesame ] ] | <string>", ["asSpecified"], true);
  ("text-indent", "[ <length-percentage> ] && hanging? && each-line?", ["percentageOrAbsoluteLengthPlusKeywords"], true);
  ("text-justify", "auto | none | inter-word | inter-character", ["asSpecified"], true);
  ("text-orientation", "mixed | upright | sideways", ["asSpecified"], true);
  ("text-overflow", "clip | ellipsis", ["asSpecified"], false);
  ("text-rendering", "auto | optimizeSpeed | optimizeLegibility | geometricPrecision", ["asSpecified"], true);
  ("text-shadow", "none | [ <color>? && [ <length>{2} <length [0,∞]>? ] ]#", ["colorPlusThreeAbsoluteLengths"], true);
  ("text-size-adjust", "auto | none | <percentage [0,∞]>", ["asSpecified"], true);
  ("text-spacing-trim", "space-all | normal | space-first | trim-start", ["asSpecified"], true);
  ("text-transform", "none | [capitalize | uppercase | lowercase ] || full-width || full-size-kana", ["asSpecified"], true);
  ("text-underline-offset", "auto | <length> | <percentage>", ["asSpecified"], true);
  ("text-underline-position", "auto | [ under || [ left | right ] ]", ["asSpecified"], true);
  ("text-wrap", "<'text-wrap-mode'> || <'text-wrap-style'>", ["text-wrap-mode"; "text-wrap-style"], true);
  ("text-wrap-mode", "wrap | nowrap", ["asSpecified"], true);
  ("text-wrap-style", "auto | balance | stable | pretty", ["asSpecified"], true);
  ("timeline-scope", "none | all | <dashed-ident>#", ["noneOrOrderedListOfIdentifiers"], false);
  ("timeline-trigger", "none | [ <'timeline-trigger-name'> <'timeline-trigger-source'> <'timeline-trigger-activation-range'> [ / <'timeline-trigger-active-range'> ]? ]#", ["timeline-trigger-name"; "timeline-trigger-source"; "timeline-trigger-activation-range"; "timeline-trigger-active-range"], false);
  ("timeline-trigger-activation-range", "[ <'timeline-trigger-activation-range-start'> <'timeline-trigger-activation-range-end'>? ]#", ["timeline-trigger-activation-range-start"; "timeline-trigger-activation-range-end"], false);
  ("timeline-trigger-activation-range-end", "[ normal | <length-percentage> | <timeline-range-name> <length-percentage>? ]#", ["listEachItemConsistingOfNormalLengthPercentageOrNameLengthPercentage"], false);
  ("timeline-trigger-activation-range-start", "[ normal | <length-percentage> | <timeline-range-name> <length-percentage>? ]#", ["listEachItemConsistingOfNormalLengthPercentageOrNameLengthPercentage"], false);
  ("timeline-trigger-active-range", "[ <'timeline-trigger-active-range-start'> <'timeline-trigger-active-range-end'>? ]#", ["timeline-trigger-active-range-start"; "timeline-trigger-active-range-end"], false);
  ("timeline-trigger-active-range-end", "[ auto | normal | <length-percentage> | <timeline-range-name> <length-percentage>? ]#", ["listEachItemConsistingOfNormalLengthPercentageOrNameLengthPercentage"], false);
  ("timeline-trigger-active-range-start", "[ auto | normal | <length-percentage> | <timeline-range-name> <length-percentage>? ]#", ["listEachItemConsistingOfNormalLengthPercentageOrNameLengthPercentage"], false);
  ("timeline-trigger-name", "none | <dashed-ident>#", ["asSpecified"], false);
  ("timeline-trigger-source", "<single-animation-timeline>#", ["listOfNoneAutoIdentScrollOrView"], false);
  ("top", "auto | <length-percentage> | <anchor()> | <anchor-size()>", ["lengthAbsolutePercentageAsSpecifiedOtherwiseAuto"], false);
  ("touch-action", "auto | none | [ [ pan-x | pan-left | pan-right ] || [ pan-y | pan-up | pan-down ] || pinch-zoom ] | manipulation", ["asSpecified"], false);
  ("transform", "none | <transform-list>", ["asSpecifiedRelativeToAbsoluteLengths"], false);
  ("transform-box", "content-box | border-box | fill-box | stroke-box | view-box", ["asSpecified"], false);
  ("transform-origin", "[ left | center | right | top | bottom | <length-percentage> ] | [ left | center | right | <length-percentage> ] [ top | center | bottom | <length-percentage> ] <length>? | [ [ center | left | right ] && [ center | top | bottom ] ] <length>?", ["forLengthAbsoluteValueOtherwisePercentage"], false);
  ("transform-style", "flat | preserve-3d", ["asSpecified"], false);
  ("transition", "<single-transition>#", ["transition-delay"; "transition-duration"; "transition-property"; "transition-timing-function"; "transition-behavior"], false);
  ("transition-behavior", "<transition-behavior-value>#", ["asSpecified"], false);
  ("transition-delay", "<time>#", ["asSpecified"], false);
  ("transition-duration", "<time [0s,∞]>#", ["asSpecified"], false);
  ("transition-property", "none | <single-transition-property>#", ["asSpecified"], false);
  ("transition-timing-function", "<easing-function>#", ["asSpecified"], false);
  ("translate", "none | <length-percentage> [ <length-percentage> <length>? ]?", ["asSpecifiedRelativeToAbsoluteLengths"], false);
  ("trigger-scope", "none | all | <dashed-ident>#", ["asSpecified"], false);
  ("unicode-bidi", "normal | embed | isolate | bidi-override | isolate-override | plaintext", ["asSpecified"], false);
  ("user-select", "auto | text | none | contain | all", ["asSpecified"], false);
  ("vector-effect", "none | non-scaling-stroke | non-scaling-size | non-rotation | fixed-position", ["asSpecified"], false);
  ("vertical-align", "[ first | last] || <'alignment-baseline'> || <'baseline-shift'>", ["asLonghands"], false);
  ("view-timeline", "[ <'view-timeline-name'> [ <'view-timeline-axis'> || <'view-timeline-inset'> ]? ]#", ["view-timeline-name"; "view-timeline-axis"], false);
  ("view-timeline-axis", "[ block | inline | x | y ]#", ["asSpecified"], false);
  ("view-timeline-inset", "[ [ auto | <length-percentage> ]{1,2} ]#", ["listEachItemConsistingOfPairsOfAutoOrLengthPercentage"], false);
  ("view-timeline-name", "[ none | <dashed-ident> ]#", ["noneOrOrderedListOfIdentifiers"], false);
  ("view-transition-class", "none | <custom-ident>+", ["asSpecified"], false);
  ("view-transition-name", "none | <custom-ident>", ["asSpecified"], false);
  ("view-transition-scope", "none | all", ["asSpecified"], false);
  ("visibility", "visible | hidden | force-hidden | collapse", ["asSpecified"], true);
  ("white-space", "normal | pre | nowrap | pre-wrap | break-spaces | pre-line", ["asSpecified"], true);
  ("white-space-collapse", "collapse | preserve | preserve-breaks | preserve-spaces | break-spaces", ["asSpecified"], true);
  ("widows", "<integer [1,∞]>", ["asSpecified"], true);
  ("width", "auto | <length-percentage [0,∞]> | min-content | max-content | fit-content | fit-content(<length-percentage [0,∞]>) | <calc-size()> | <anchor-size()>", ["percentageAutoOrAbsoluteLength"], false);
  ("will-change", "auto | <animateable-feature>#", ["asSpecified"], false);
  ("word-break", "normal | keep-all | break-all | break-word", ["asSpecified"], true);
  ("word-spacing", "normal | <length>", ["absoluteLength"], true);
  ("word-wrap", "normal | break-word | anywhere", ["asSpecified"], true);
  ("writing-mode", "horizontal-tb | vertical-rl | vertical-lr | sideways-rl | sideways-lr", ["asSpecified"], true);
  ("x", "<length-percentage>", ["percentageAsSpecifiedOrAbsoluteLength"], false);
  ("y", "<length-percentage>", ["percentageAsSpecifiedOrAbsoluteLength"], false);
  ("z-index", "auto | <integer> | inherit", ["asSpecified"], false);
  ("zoom", "<number [0,∞]> | <percentage [0,∞]>", ["asSpecifiedButWithPercentageConvertedToTheEquivalentNumber"], false)].
