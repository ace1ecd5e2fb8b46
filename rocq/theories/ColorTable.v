(** The table of named colours, PdfColor.cpp:145-295, taken from the source by a script. *)
From Coq Require Import String.
From Verif Require Import Base.
Local Open Scope Z_scope.
(** s_NamedColors: the name and the text of the colour *)
Definition named_texts : list (list Z * list Z) := [
  (bs "aliceblue", bs "#F0F8FF");
  (bs "antiquewhite", bs "#FAEBD7");
  (bs "aqua", bs "#00FFFF");
  (bs "aquamarine", bs "#7FFFD4");
  (bs "azure", bs "#F0FFFF");
  (bs "beige", bs "#F5F5DC");
  (bs "bisque", bs "#FFE4C4");
  (bs "black", bs "#000000");
  (bs "blanchedalmond", bs "#FFEBCD");
  (bs "blue", bs "#0000FF");
  (bs "blueviolet", bs "#8A2BE2");
  (bs "brown", bs "#A52A2A");
  (bs "burlywood", bs "#DEB887");
  (bs "cadetblue", bs "#5F9EA0");
  (bs "chartreuse", bs "#7FFF00");
  (bs "chocolate", bs "#D2691E");
  (bs "coral", bs "#FF7F50");
  (bs "cornflowerblue", bs "#6495ED");
  (bs "cornsilk", bs "#FFF8DC");
  (bs "crimson", bs "#DC143C");
  (bs "cyan", bs "#00FFFF");
  (bs "darkblue", bs "#00008B");
  (bs "darkcyan", bs "#008B8B");
  (bs "darkgoldenrod", bs "#B8860B");
  (bs "darkgray", bs "#A9A9A9");
  (bs "darkgreen", bs "#006400");
  (bs "darkgrey", bs "#A9A9A9");
  (bs "darkkhaki", bs "#BDB76B");
  (bs "darkmagenta", bs "#8B008B");
  (bs "darkolivegreen", bs "#556B2F");
  (bs "darkorange", bs "#FF8C00");
  (bs "darkorchid", bs "#9932CC");
  (bs "darkred", bs "#8B0000");
  (bs "darksalmon", bs "#E9967A");
  (bs "darkseagreen", bs "#8FBC8F");
  (bs "darkslateblue", bs "#483D8B");
  (bs "darkslategray", bs "#2F4F4F");
  (bs "darkslategrey", bs "#2F4F4F");
  (bs "darkturquoise", bs "#00CED1");
  (bs "darkviolet", bs "#9400D3");
  (bs "deeppink", bs "#FF1493");
  (bs "deepskyblue", bs "#00BFFF");
  (bs "dimgray", bs "#696969");
  (bs "dimgrey", bs "#696969");
  (bs "dodgerblue", bs "#1E90FF");
  (bs "firebrick", bs "#B22222");
  (bs "floralwhite", bs "#FFFAF0");
  (bs "forestgreen", bs "#228B22");
  (bs "fuchsia", bs "#FF00FF");
  (bs "gainsboro", bs "#DCDCDC");
  (bs "ghostwhite", bs "#F8F8FF");
  (bs "gold", bs "#FFD700");
  (bs "goldenrod", bs "#DAA520");
  (bs "gray", bs "#BEBEBE");
  (bs "green", bs "#00FF00");
  (bs "greenyellow", bs "#ADFF2F");
  (bs "grey", bs "#BEBEBE");
  (bs "honeydew", bs "#F0FFF0");
  (bs "hotpink", bs "#FF69B4");
  (bs "indianred", bs "#CD5C5C");
  (bs "indigo", bs "#4B0082");
  (bs "ivory", bs "#FFFFF0");
  (bs "khaki", bs "#F0E68C");
  (bs "lavender", bs "#E6E6FA");
  (bs "lavenderblush", bs "#FFF0F5");
  (bs "lawngreen", bs "#7CFC00");
  (bs "lemonchiffon", bs "#FFFACD");
  (bs "lightblue", bs "#ADD8E6");
  (bs "lightcoral", bs "#F08080");
  (bs "lightcyan", bs "#E0FFFF");
  (bs "lightgoldenrod", bs "#EEDD82");
  (bs "lightgoldenrodyellow", bs "#FAFAD2");
  (bs "lightgray", bs "#D3D3D3");
  (bs "lightgreen", bs "#90EE90");
  (bs "lightgrey", bs "#D3D3D3");
  (bs "lightpink", bs "#FFB6C1");
  (bs "lightsalmon", bs "#FFA07A");
  (bs "lightseagreen", bs "#20B2AA");
  (bs "lightskyblue", bs "#87CEFA");
  (bs "lightslategray", bs "#778899");
  (bs "lightslategrey", bs "#778899");
  (bs "lightsteelblue", bs "#B0C4DE");
  (bs "lightyellow", bs "#FFFFE0");
  (bs "lime", bs "#00FF00");
  (bs "limegreen", bs "#32CD32");
  (bs "linen", bs "#FAF0E6");
  (bs "magenta", bs "#FF00FF");
  (bs "maroon", bs "#B03060");
  (bs "mediumaquamarine", bs "#66CDAA");
  (bs "mediumblue", bs "#0000CD");
  (bs "mediumorchid", bs "#BA55D3");
  (bs "mediumpurple", bs "#9370DB");
  (bs "mediumseagreen", bs "#3CB371");
  (bs "mediumslateblue", bs "#7B68EE");
  (bs "mediumspringgreen", bs "#00FA9A");
  (bs "mediumturquoise", bs "#48D1CC");
  (bs "mediumvioletred", bs "#C71585");
  (bs "midnightblue", bs "#191970");
  (bs "mintcream", bs "#F5FFFA");
  (bs "mistyrose", bs "#FFE4E1");
  (bs "moccasin", bs "#FFE4B5");
  (bs "navajowhite", bs "#FFDEAD");
  (bs "navy", bs "#000080");
  (bs "oldlace", bs "#FDF5E6");
  (bs "olive", bs "#808000");
  (bs "olivedrab", bs "#6B8E23");
  (bs "orange", bs "#FFA500");
  (bs "orangered", bs "#FF4500");
  (bs "orchid", bs "#DA70D6");
  (bs "palegoldenrod", bs "#EEE8AA");
  (bs "palegreen", bs "#98FB98");
  (bs "paleturquoise", bs "#AFEEEE");
  (bs "palevioletred", bs "#DB7093");
  (bs "papayawhip", bs "#FFEFD5");
  (bs "peachpuff", bs "#FFDAB9");
  (bs "peru", bs "#CD853F");
  (bs "pink", bs "#FFC0CB");
  (bs "plum", bs "#DDA0DD");
  (bs "powderblue", bs "#B0E0E6");
  (bs "purple", bs "#A020F0");
  (bs "red", bs "#FF0000");
  (bs "rosybrown", bs "#BC8F8F");
  (bs "royalblue", bs "#4169E1");
  (bs "saddlebrown", bs "#8B4513");
  (bs "salmon", bs "#FA8072");
  (bs "sandybrown", bs "#F4A460");
  (bs "seagreen", bs "#2E8B57");
  (bs "seashell", bs "#FFF5EE");
  (bs "sienna", bs "#A0522D");
  (bs "silver", bs "#C0C0C0");
  (bs "skyblue", bs "#87CEEB");
  (bs "slateblue", bs "#6A5ACD");
  (bs "slategray", bs "#708090");
  (bs "slategrey", bs "#708090");
  (bs "snow", bs "#FFFAFA");
  (bs "springgreen", bs "#00FF7F");
  (bs "steelblue", bs "#4682B4");
  (bs "tan", bs "#D2B48C");
  (bs "teal", bs "#008080");
  (bs "thistle", bs "#D8BFD8");
  (bs "tomato", bs "#FF6347");
  (bs "turquoise", bs "#40E0D0");
  (bs "violet", bs "#EE82EE");
  (bs "wheat", bs "#F5DEB3");
  (bs "white", bs "#FFFFFF");
  (bs "whitesmoke", bs "#F5F5F5");
  (bs "yellow", bs "#FFFF00");
  (bs "yellowgreen", bs "#9ACD32")].
